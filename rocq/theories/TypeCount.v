(** * TypeCount: counting invariants of a group of operations under changes of coordinates
    (proof support for C57-C59).  Groups here are written in a primitive cell: their pure
    translations are exactly the whole-cell ones. *)
From Coq Require Import QArith Permutation.
From Verif Require Import Base Seitz Spec SpecType Algebra TypeFacts.
Open Scope Z_scope.
Local Notation length := List.length.

(** ** Lists in correspondence *)
Definition matched {A B} (rel : A -> B -> Prop) (X : list A) (Y : list B) : Prop :=
  exists Z, Permutation Z Y /\ Forall2 rel X Z.
Fixpoint zsum {A} (f : A -> Z) (l : list A) : Z :=
  match l with [] => 0 | x :: r => f x + zsum f r end.
Lemma zsum_perm {A} (f : A -> Z) l l' : Permutation l l' -> zsum f l = zsum f l'.
Proof. induction 1; cbn [zsum]; lia. Qed.
Lemma matched_zsum {A B} (rel : A -> B -> Prop) X Y f g :
  matched rel X Y -> (forall x y, In x X -> In y Y -> rel x y -> f x = g y) -> zsum f X = zsum g Y.
Proof.
  intros (Z & P & F) H. rewrite <- (zsum_perm g _ _ P).
  assert (H' : forall x y, In x X -> In y Z -> rel x y -> f x = g y)
    by (intros x y Hx Hy; apply H; auto; eapply Permutation_in; eauto).
  clear P H. induction F; cbn [zsum]; [reflexivity |].
  rewrite (H' x y), IHF; auto; [| left | left]; auto.
  intros; apply H'; auto; right; auto.
Qed.
Lemma matched_filter {A B} (rel : A -> B -> Prop) X Y p q :
  matched rel X Y -> (forall x y, In x X -> In y Y -> rel x y -> p x = q y) ->
  matched rel (filter p X) (filter q Y).
Proof.
  intros (Z & P & F) H.
  assert (H' : forall x y, In x X -> In y Z -> rel x y -> p x = q y)
    by (intros x y Hx Hy; apply H; auto; eapply Permutation_in; eauto).
  exists (filter q Z). split.
  - clear - P. induction P; cbn [filter]; auto.
    + destruct (q x); auto.
    + destruct (q x), (q y); auto. constructor.
    + eapply perm_trans; eauto.
  - clear P H. induction F; cbn [filter]; [constructor |].
    rewrite (H' x y); auto; [| left | left]; auto.
    destruct (q y); [constructor; auto |]; apply IHF; intros; apply H'; auto; right; auto.
Qed.
Lemma matched_intro {A B} (rel : A -> B -> Prop) X Y : NoDup X -> NoDup Y ->
  (forall x, In x X -> exists y, In y Y /\ rel x y) ->
  (forall y, In y Y -> exists x, In x X /\ rel x y) ->
  (forall x x' y, In x X -> In x' X -> In y Y -> rel x y -> rel x' y -> x = x') ->
  (forall x y y', In x X -> In y Y -> In y' Y -> rel x y -> rel x y' -> y = y') ->
  matched rel X Y.
Proof.
  revert Y. induction X as [| x X IH]; intros Y NX NY T S J K.
  - exists []. split; [| constructor]. destruct Y as [| y Y]; [constructor |].
    destruct (S y) as (x & [] & _). left; auto.
  - destruct (T x) as (y & Hy & R); [left; auto |].
    apply in_split in Hy. destruct Hy as (Y1 & Y2 & ->).
    inversion NX as [| ? ? Nx NX']; subst.
    assert (P : Permutation (y :: Y1 ++ Y2) (Y1 ++ y :: Y2)) by apply Permutation_middle.
    assert (NY' : NoDup (y :: Y1 ++ Y2)) by (eapply Permutation_NoDup; [apply Permutation_sym |]; eauto).
    inversion NY' as [| ? ? Ny NY'']; subst.
    assert (In' : forall b, In b (Y1 ++ Y2) -> In b (Y1 ++ y :: Y2))
      by (intros b Hb; eapply Permutation_in; [exact P | right; auto]).
    assert (Yin : In y (Y1 ++ y :: Y2)) by (apply in_or_app; right; left; auto).
    destruct (IH (Y1 ++ Y2)) as (Z & PZ & F); auto.
    + intros a Ha. destruct (T a) as (b & Hb & Rb); [right; auto |].
      exists b. split; auto. apply (Permutation_in _ (Permutation_sym P)) in Hb.
      destruct Hb as [<- | Hb]; auto.
      exfalso. apply Nx. replace x with a; auto. apply (J a x y); auto; [right | left]; auto.
    + intros b Hb. destruct (S b) as (a & Ha & Ra); auto. exists a. split; auto.
      destruct Ha as [<- | Ha]; auto. exfalso. apply Ny.
      replace y with b; auto. apply (K x b y); auto. left; auto.
    + intros a a' b Ha Ha' Hb. apply J; auto; right; auto.
    + intros a b b' Ha Hb Hb'. apply K; auto; right; auto.
    + exists (y :: Z). split; [| constructor; auto].
      eapply perm_trans; [apply perm_skip; exact PZ | exact P].
Qed.

(** ** Points of a box *)
Definition iota (n : nat) : list Z := map Z.of_nat (seq 0 n).
Definition box (n : nat) : list vec3 :=
  map (fun p => V3 (fst p) (fst (snd p)) (snd (snd p))) (list_prod (iota n) (list_prod (iota n) (iota n))).
Lemma iota_in n z : In z (iota n) <-> 0 <= z < Z.of_nat n.
Proof.
  unfold iota. rewrite in_map_iff. split.
  - intros (k & <- & H). apply in_seq in H. lia.
  - intros H. exists (Z.to_nat z). split; [lia |]. apply in_seq. lia.
Qed.
Lemma NoDup_prod {A B} (X : list A) (Y : list B) : NoDup X -> NoDup Y -> NoDup (list_prod X Y).
Proof.
  intros NX NY. induction NX as [| x X Nx NX IH]; cbn [list_prod]; [constructor |].
  assert (App : forall l l' : list (A * B), NoDup l -> NoDup l' -> (forall e, In e l -> ~ In e l') -> NoDup (l ++ l')).
  { clear. intros l l' N N' D. induction N; cbn; auto. constructor.
    - rewrite in_app_iff. intros [C | C]; [auto | apply (D x); auto; left; auto].
    - apply IHN. intros e He. apply D. right; auto. }
  apply App; auto.
  - apply FinFun.Injective_map_NoDup; auto. intros a b E. congruence.
  - intros (a, b) H1 H2. apply in_map_iff in H1. destruct H1 as (y & E & Hy).
    apply in_prod_iff in H2. destruct H2. congruence.
Qed.
Lemma iota_NoDup n : NoDup (iota n).
Proof. apply FinFun.Injective_map_NoDup; [intros a b; lia | apply seq_NoDup]. Qed.
Lemma box_in n v : In v (box n) <-> vbetween 0 (Z.of_nat n) v.
Proof.
  unfold box, vbetween. rewrite in_map_iff. split.
  - intros ((x, (y, z)) & <- & H). cbn [fst snd vx vy vz]. rewrite !in_prod_iff, !iota_in in H. tauto.
  - intros H. destruct v as [x y z]. cbn [vx vy vz] in H. exists (x, (y, z)). split; auto.
    rewrite !in_prod_iff, !iota_in. tauto.
Qed.
Lemma box_NoDup n : NoDup (box n).
Proof.
  apply FinFun.Injective_map_NoDup.
  - intros (a, (b, c)) (a', (b', c')) E. cbn [fst snd] in E.
    pose proof (f_equal vx E). pose proof (f_equal vy E). pose proof (f_equal vz E). cbn [vx vy vz] in *. congruence.
  - auto using NoDup_prod, iota_NoDup.
Qed.
Definition vmodn (n : Z) (v : vec3) : vec3 := vmap (fun z => z mod n) v.
Definition vdivn (n : Z) (v : vec3) : vec3 := vmap (fun z => z / n) v.
Lemma vmodn_eq n v : n <> 0 -> v = vadd (vmodn n v) (vscale n (vdivn n v)).
Proof.
  intros Hn. destruct v as [x y z]. unfold vmodn, vdivn, vmap, vadd, vscale; cbn [vx vy vz].
  apply vec3_ext; cbn [vx vy vz]; rewrite Z.add_comm; apply Z.div_mod; auto.
Qed.
Lemma vmodn_box n v : (0 < n)%nat -> In (vmodn (Z.of_nat n) v) (box n).
Proof.
  intros H. apply box_in. repeat split; cbn; first [apply Z.mod_pos_bound; lia].
Qed.
Lemma box_eq n u v z : In u (box n) -> In v (box n) -> vsub u v = vscale (Z.of_nat n) z -> u = v.
Proof.
  rewrite !box_in. intros Hu Hv E.
  assert (K : forall a b c, 0 <= a < Z.of_nat n -> 0 <= b < Z.of_nat n -> a - b = Z.of_nat n * c -> a = b).
  { clear. intros a b c Ha Hb E. assert (c = 0) by nia. subst. lia. }
  destruct Hu as (U1 & U2 & U3), Hv as (V1 & V2 & V3).
  pose proof (f_equal vx E). pose proof (f_equal vy E). pose proof (f_equal vz E).
  cbn [vsub vscale vx vy vz] in *. apply vec3_ext; eapply K; eauto.
Qed.
(** divisibility of a vector *)
Definition vmod0 (n : Z) (v : vec3) : bool := vforall (fun z => z mod n =? 0) v.
Lemma vmod0_iff n v : 0 < n -> (vmod0 n v = true <-> exists z, v = vscale n z).
Proof.
  intros Hn. unfold vmod0, vforall. rewrite !andb_true_iff, !Z.eqb_eq. split.
  - intros ((A & B) & C). exists (vdivn n v). rewrite (vmodn_eq n v) at 1 by lia.
    unfold vmodn, vmap. rewrite A, B, C. destruct (vscale n (vdivn n v)). mat_ring.
  - intros (z & ->). cbn [vscale vx vy vz]. rewrite !(Z.mul_comm n), !Z.mod_mul by lia. auto.
Qed.

(** ** Groups in a primitive cell *)
Definition pgroup (core : list op) (o : op) : Prop :=
  exists m, In m core /\ fst m = fst o /\ vcong12 (snd o) (snd m).
Definition good_core (core : list op) : Prop :=
  NoDup (map fst core) /\ (exists t, In (I3, t) core /\ vcong12 t v0) /\
  (forall m, In m core -> fst m = I3 -> vcong12 (snd m) v0).
Lemma vcong12_scale a b : vcong12 a b <-> exists z, vsub a b = vscale 12 z.
Proof.
  unfold vcong12, cong12. split.
  - intros ((x & X) & (y & Y) & (z & Z)). exists (V3 x y z). apply vec3_ext; cbn; auto.
  - intros (z & E). repeat split; [exists (vx z) | exists (vy z) | exists (vz z)].
    + exact (f_equal vx E). + exact (f_equal vy E). + exact (f_equal vz E).
Qed.
Lemma pgroup_translation core u : good_core core -> vcong12 u v0 -> pgroup core (I3, u).
Proof.
  intros (_ & (t & Ht & C) & _) Hu. exists (I3, t). cbn. split; auto. split; auto.
  eapply vcong12_trans; [exact Hu | apply vcong12_sym, C].
Qed.
Lemma pgroup_pure core u : good_core core -> pgroup core (I3, u) -> exists z, u = vscale 12 z.
Proof.
  intros (_ & _ & P) (m & Hm & R & C). cbn in R, C.
  assert (vcong12 u v0) by (eapply vcong12_trans; [exact C | apply P; auto]).
  apply vcong12_scale in H. destruct H as (z & E). exists z. rewrite <- E. mat_ring.
Qed.
Definition cols (a b c : vec3) : mat3 := M3 (vx a) (vx b) (vx c) (vy a) (vy b) (vy c) (vz a) (vz b) (vz c).
Lemma mvmul_e1 M : mvmul M (V3 1 0 0) = V3 (m11 M) (m21 M) (m31 M). Proof. mat_ring. Qed.
Lemma mvmul_e2 M : mvmul M (V3 0 1 0) = V3 (m12 M) (m22 M) (m32 M). Proof. mat_ring. Qed.
Lemma mvmul_e3 M : mvmul M (V3 0 0 1) = V3 (m13 M) (m23 M) (m33 M). Proof. mat_ring. Qed.
Lemma mat_by_cols M N : mvmul M (V3 1 0 0) = mvmul N (V3 1 0 0) -> mvmul M (V3 0 1 0) = mvmul N (V3 0 1 0) ->
  mvmul M (V3 0 0 1) = mvmul N (V3 0 0 1) -> M = N.
Proof.
  rewrite !mvmul_e1, !mvmul_e2, !mvmul_e3. intros A B C.
  apply mat3_ext; [exact (f_equal vx A) | exact (f_equal vx B) | exact (f_equal vx C)
  | exact (f_equal vy A) | exact (f_equal vy B) | exact (f_equal vy C)
  | exact (f_equal vz A) | exact (f_equal vz B) | exact (f_equal vz C)].
Qed.
Lemma cols_e1 a b c : mvmul (cols a b c) (V3 1 0 0) = a. Proof. unfold cols; mat_ring. Qed.
Lemma cols_e2 a b c : mvmul (cols a b c) (V3 0 1 0) = b. Proof. unfold cols; mat_ring. Qed.
Lemma cols_e3 a b c : mvmul (cols a b c) (V3 0 0 1) = c. Proof. unfold cols; mat_ring. Qed.
Lemma vcong12_12 u : vcong12 (vscale 12 u) v0.
Proof. apply vcong12_scale. exists u. mat_ring. Qed.
(** a change of coordinates between primitive groups has a unimodular linear part *)
Lemma unimodular_part f core core' : good_core core -> good_core core' -> invertible f ->
  turns_into f (pgroup core) (pgroup core') ->
  exists U V, ch_M f = mscale (ch_d f) U /\ mmul U V = I3.
Proof.
  intros Gc Gc' I [T S]. destruct I as [Hd Hm]. set (M := ch_M f) in *. set (d := ch_d f) in *.
  assert (F : forall u, exists z, mvmul M u = vscale d z).
  { intros u. destruct (T (I3, vscale 12 u)) as ((R, t) & G' & C).
    { apply pgroup_translation; auto using vcong12_12. }
    apply carries_iff in C; [| exact Hd]. destruct C as [C1 C2]. cbn [fst snd] in *. fold M d in C1, C2.
    rewrite mmul_I_r in C1. assert (R = I3) by (apply (mmul_inj_r M); auto; rewrite mmul_I_l; auto). subst R.
    destruct (pgroup_pure _ _ Gc' G') as (z & ->). exists z.
    rewrite mvmul_I in C2. apply (vscale_inj 12); [lia |].
    rewrite mvmul_vscale in C2. clear - C2.
    pose proof (f_equal vx C2). pose proof (f_equal vy C2). pose proof (f_equal vz C2).
    apply vec3_ext; cbn [vadd vscale vx vy vz] in *; lia. }
  assert (B : forall u, exists z, mvmul M z = vscale d u).
  { intros u. destruct (S (I3, vscale 12 u)) as ((R, t) & G' & C).
    { apply pgroup_translation; auto using vcong12_12. }
    apply carries_iff in C; [| exact Hd]. destruct C as [C1 C2]. cbn [fst snd] in *. fold M d in C1, C2.
    rewrite mmul_I_l in C1.
    assert (R = I3) by (apply (mmul_inj_l M); auto; rewrite mmul_I_r; auto). subst R.
    destruct (pgroup_pure _ _ Gc G') as (z & ->). exists z.
    rewrite mvmul_I in C2. apply (vscale_inj 12); [lia |].
    rewrite mvmul_vscale in C2. clear - C2.
    pose proof (f_equal vx C2). pose proof (f_equal vy C2). pose proof (f_equal vz C2).
    apply vec3_ext; cbn [vadd vscale vx vy vz] in *; lia. }
  destruct (F (V3 1 0 0)) as (a & A), (F (V3 0 1 0)) as (b & A'), (F (V3 0 0 1)) as (c & A'').
  destruct (B (V3 1 0 0)) as (a' & E), (B (V3 0 1 0)) as (b' & E'), (B (V3 0 0 1)) as (c' & E'').
  assert (EM : M = mscale d (cols a b c)).
  { apply mat_by_cols; rewrite mvmul_mscale, ?cols_e1, ?cols_e2, ?cols_e3; auto. }
  exists (cols a b c), (cols a' b' c'). split; auto.
  assert (K : forall x y, mvmul M x = vscale d y -> mvmul (cols a b c) x = y).
  { intros x y H. rewrite EM, mvmul_mscale in H. apply (vscale_inj d); auto. lia. }
  apply mat_by_cols; rewrite mvmul_mmul, ?cols_e1, ?cols_e2, ?cols_e3, mvmul_I; apply K; auto.
Qed.

(** ** Formulas: numbers computed from a primitive group *)
Definition kind := (Z * Z)%type.
Definition is_kind (K : kind) (R : mat3) : bool := (mdet R =? fst K) && (mtrace R =? snd K).
(** the translation part of the k-th power *)
Fixpoint powt (R : mat3) (t : vec3) (k : nat) : vec3 :=
  match k with O => v0 | S j => vadd (mvmul R (powt R t j)) t end.
Definition cond (n : Z) (R : mat3) (w : vec3) (s : Z) : bool := vmod0 n (vsub (mvmul R w) (vscale s w)).
Definition det3 (a b c : vec3) : Z := mdet (M3 (vx a) (vy a) (vz a) (vx b) (vy b) (vz b) (vx c) (vy c) (vz c)).
(** operations of a kind whose rotation part has k-th power 1 *)
Definition sel (K : kind) (k : nat) (core : list op) : list op :=
  filter (fun m => if is_kind K (fst m) then meqb (mpow (fst m) k) I3 else false) core.
(** representatives of the operations modulo n-fold cells *)
Definition opx (a : op * vec3) : op := (fst (fst a), vadd (snd (fst a)) (vscale 12 (snd a))).
Definition reps (n : nat) (l : list op) : list op := map opx (list_prod l (box n)).
Definition rcount (K : kind) (core : list op) (n : Z) (w : vec3) (s : Z) : Z :=
  zsum (fun m => if is_kind K (fst m) then if cond n (fst m) w s then 1 else 0 else 0) core.
(** those whose k-th power is a translation by n-fold cells *)
Definition torsion (n : nat) (K : kind) (k : nat) (core : list op) : list op :=
  filter (fun a => vmod0 (12 * Z.of_nat n) (powt (fst a) (snd a) k)) (reps n (sel K k core)).
Definition commute (n : Z) (a b : op) : bool :=
  if vmod0 n (vsub (vadd (mvmul (fst a) (snd b)) (snd a)) (vadd (mvmul (fst b) (snd a)) (snd b)))
  then meqb (mmul (fst a) (fst b)) (mmul (fst b) (fst a)) else false.
Inductive formula :=
| FJ (n : nat) (T : kind) (k : nat) (K1 : kind) (s1 : Z) (K2 : kind) (s2 : Z)
| FC (n : nat) (T : kind) (k : nat) (K1 : kind) (l : nat)
| FK (n : nat) (T : kind) (k m : nat) (s : Z) (K1 : kind) (s1 : Z)
| FX (n : nat) (T : kind) (k : nat) (c : Z).
Definition formula_pos (F : formula) : bool :=
  match F with
  | FJ n _ _ _ _ _ _ | FC n _ _ _ _ | FX n _ _ _ => Nat.ltb 0 n
  | FK n _ _ m _ _ _ => Nat.ltb 0 n && Nat.ltb 0 m
  end.
Definition chiral (F : formula) : bool := match F with FX _ _ _ _ => true | _ => false end.
Definition ev (core : list op) (F : formula) : Z :=
  match F with
  | FJ n T k K1 s1 K2 s2 =>
      let N := 12 * Z.of_nat n in
      zsum (fun a => let w := powt (fst a) (snd a) k in
                     let c := rcount K1 core N w s1 in
                     if c =? 0 then 0 else c * rcount K2 core N w s2)
           (reps n (sel T k core))
  | FC n T k K1 l =>
      let B := torsion n K1 l core in
      zsum (fun a => zsum (fun b => if commute (12 * Z.of_nat n) a b then 1 else 0) B) (torsion n T k core)
  | FK n T k m s K1 s1 =>
      zsum (fun a => zsum (fun v => if cond (Z.of_nat m) (fst a) v s
                                    then rcount K1 core (Z.of_nat m) v s1 else 0) (box m))
           (torsion n T k core)
  | FX n T k c =>
      zsum (fun a => let w := powt (fst a) (snd a) k in
                     if vmod0 12 w then
                       let w' := vdivn 12 w in
                       zsum (fun v => if (det3 w' v (mvmul (fst a) v) - c) mod Z.of_nat n =? 0 then 1 else 0) (box n)
                     else 0)
           (reps n (sel T k core))
  end.

(** ** They are invariant *)
Ltac mring :=
  intros;
  unfold mmul, mvmul, vmmul, madd, msub, mopp, mscale, mmap, vadd, vsub, vopp, vscale, vdot,
    vouter, vmap, mdet, mtrace, I3, v0; mat_cbn;
  first [ ring | apply mat3_ext; mat_cbn; ring | apply vec3_ext; mat_cbn; ring ].
Section Invariance.
Variables (U V : mat3) (q : vec3) (d : Z).
Hypothesis UV : mmul U V = I3.
Hypothesis Hd : 0 < d.
Lemma U_unimodular : unimodular U. Proof. eapply mmul_I_unimodular; eauto. Qed.
Lemma U_det : mdet U <> 0. Proof. destruct U_unimodular; lia. Qed.
Lemma VU : mmul V U = I3.
Proof.
  rewrite (mmul_right_inverse_unique U V U_unimodular UV). apply minv_l, U_unimodular.
Qed.
Definition rrel (R S : mat3) : Prop := mmul U R = mmul S U.
Definition vrel (n : Z) (u v : vec3) : Prop := exists z, vsub (mvmul U u) v = vscale n z.
Definition orel (n : Z) (a b : op) : Prop :=
  rrel (fst a) (fst b) /\
  exists z, vadd (vscale d (vsub (mvmul U (snd a)) (snd b))) (vsub q (mvmul (fst b) q)) = vscale (12 * n * d) z.
Lemma rrel_form R S : rrel R S -> S = mmul (mmul U R) V.
Proof. unfold rrel. intros ->. rewrite <- mmul_assoc, UV, mmul_I_r. reflexivity. Qed.
Lemma rrel_fun R S S' : rrel R S -> rrel R S' -> S = S'.
Proof. intros A B. rewrite (rrel_form _ _ A), (rrel_form _ _ B). reflexivity. Qed.
Lemma rrel_inj R R' S : rrel R S -> rrel R' S -> R = R'.
Proof. unfold rrel. intros A B. apply (mmul_inj_l U); [apply U_det | congruence]. Qed.
Lemma rrel_mul R S R' S' : rrel R S -> rrel R' S' -> rrel (mmul R R') (mmul S S').
Proof. unfold rrel. intros A B. rewrite mmul_assoc, A, <- mmul_assoc, B, mmul_assoc. reflexivity. Qed.
Lemma rrel_I : rrel I3 I3. Proof. unfold rrel. rewrite mmul_I_l, mmul_I_r. reflexivity. Qed.
Lemma rrel_eq R S R' S' : rrel R S -> rrel R' S' -> meqb R R' = meqb S S'.
Proof.
  intros A B. apply eq_true_iff_eq. rewrite !meqb_eq. split; intros ->; [eapply rrel_fun | eapply rrel_inj]; eauto.
Qed.
Lemma rrel_pow R S k : rrel R S -> rrel (mpow R k) (mpow S k).
Proof. intros A. induction k; cbn [mpow]; [apply rrel_I | apply rrel_mul; auto]. Qed.
Lemma mtrace_comm a b : mtrace (mmul a b) = mtrace (mmul b a). Proof. mring. Qed.
Lemma rrel_kind K R S : rrel R S -> is_kind K R = is_kind K S.
Proof.
  intros A. unfold is_kind. f_equal; f_equal.
  - apply (Z.mul_reg_l _ _ (mdet U)); [apply U_det |]. rewrite <- mdet_mmul, A, mdet_mmul. lia.
  - rewrite (rrel_form _ _ A), mtrace_comm, mmul_assoc, VU, mmul_I_l. reflexivity.
Qed.
Lemma vrel_mod0 n u v : 0 < n -> vrel n u v -> vmod0 n u = vmod0 n v.
Proof.
  intros Hn (z & E). apply eq_true_iff_eq. rewrite !vmod0_iff by auto. split; intros (y & ->).
  - exists (vsub (mvmul U y) z). replace v with (vsub (mvmul U (vscale n y)) (vscale n z)); [mring |].
    rewrite <- E. mring.
  - exists (mvmul V (vadd y z)). rewrite <- (mvmul_I u), <- VU, mvmul_mmul.
    replace (mvmul U u) with (vadd (vscale n z) (vscale n y)); [mring |]. rewrite <- E. mring.
Qed.
Lemma vrel_comb n u v R S s : rrel R S -> vrel n u v ->
  vrel n (vsub (mvmul R u) (vscale s u)) (vsub (mvmul S v) (vscale s v)).
Proof.
  intros A (z & E). exists (vsub (mvmul S z) (vscale s z)).
  rewrite mvmul_vsub, <- mvmul_mmul, A, mvmul_mmul, mvmul_vscale.
  replace (mvmul U u) with (vadd v (vscale n z)); [mring |]. rewrite <- E. mring.
Qed.
Lemma cond_rel n u v R S s : 0 < n -> rrel R S -> vrel n u v -> cond n R u s = cond n S v s.
Proof. intros. unfold cond. apply vrel_mod0; auto. apply vrel_comb; auto. Qed.
Lemma orel_comp n a b a' b' : orel n a b -> orel n a' b' -> orel n (op_comp a a') (op_comp b b').
Proof.
  intros [R (z & E)] [R' (z' & E')]. split; [apply rrel_mul; auto |]. cbn [op_comp fst snd].
  exists (vadd (mvmul (fst b) z') z).
  replace (vscale (12 * n * d) (vadd (mvmul (fst b) z') z)) with
    (vadd (mvmul (fst b) (vscale (12 * n * d) z')) (vscale (12 * n * d) z)) by mring.
  rewrite <- E, <- E', mvmul_mmul, (mvmul_vadd U), <- (mvmul_mmul U), R, mvmul_mmul.
  generalize (mvmul U (snd a)) (mvmul U (snd a')). mring.
Qed.
Lemma orel_id n : orel n op_id op_id.
Proof.
  split; [apply rrel_I |]. exists v0. cbn [op_id fst snd]. rewrite mvmul_I. mring.
Qed.
Lemma op_pow_parts a k : op_pow a k = (mpow (fst a) k, powt (fst a) (snd a) k).
Proof. induction k; cbn [op_pow mpow powt]; [reflexivity | rewrite IHk; reflexivity]. Qed.
Lemma orel_pow n a b k : orel n a b -> orel n (op_pow a k) (op_pow b k).
Proof. intros H. induction k; cbn [op_pow]; [apply orel_id | apply orel_comp; auto]. Qed.
Lemma vscale_cancel_d n x z : vscale d x = vscale (n * d) z -> x = vscale n z.
Proof. intros H. apply (vscale_inj d); [lia |]. rewrite H. mring. Qed.
Lemma orel_pure n t t' : orel n (I3, t) (I3, t') -> vrel (12 * n) t t'.
Proof.
  intros [_ (z & E)]. cbn [fst snd] in E. exists z. apply vscale_cancel_d. rewrite <- E, mvmul_I. mring.
Qed.
(** powers that are pure translations *)
Lemma orel_powt n a b k : orel n a b -> mpow (fst a) k = I3 ->
  vrel (12 * n) (powt (fst a) (snd a) k) (powt (fst b) (snd b) k).
Proof.
  intros H P. apply orel_pure. assert (K := orel_pow n a b k H). rewrite !op_pow_parts in K.
  assert (P' : mpow (fst b) k = I3).
  { apply (rrel_fun I3); [| apply rrel_I]. rewrite <- P. apply rrel_pow, H. }
  rewrite P, P' in K. exact K.
Qed.
Lemma commute_rel n a b a' b' : 0 < n -> orel n a b -> orel n a' b' ->
  commute (12 * n) a a' = commute (12 * n) b b'.
Proof.
  intros Hn H H'. unfold commute.
  assert (E : meqb (mmul (fst a) (fst a')) (mmul (fst a') (fst a)) = meqb (mmul (fst b) (fst b')) (mmul (fst b') (fst b))).
  { apply rrel_eq; apply rrel_mul; first [apply H | apply H']. }
  destruct (meqb (mmul (fst a) (fst a')) (mmul (fst a') (fst a))) eqn:C.
  - rewrite <- E.
    assert (X : forall x y : bool, x = y -> (if x then true else false) = (if y then true else false)) by (intros; subst; auto).
    apply X. apply vrel_mod0; [lia |].
    apply meqb_eq in C. symmetry in E. apply meqb_eq in E.
    destruct (orel_comp _ _ _ _ _ H H') as [_ (z & Z)], (orel_comp _ _ _ _ _ H' H) as [_ (y & Y)].
    cbn [op_comp fst snd] in *. exists (vsub z y). apply vscale_cancel_d.
    rewrite E in Z.
    replace (vscale (12 * n * d) (vsub z y)) with (vsub (vscale (12 * n * d) z) (vscale (12 * n * d) y)) by mring.
    rewrite <- Z, <- Y, mvmul_vsub.
    generalize (vadd (mvmul (fst a) (snd a')) (snd a)) (vadd (mvmul (fst a') (snd a)) (snd a')). intros.
    generalize (vadd (mvmul (fst b) (snd b')) (snd b)) (vadd (mvmul (fst b') (snd b)) (snd b')). intros.
    generalize (mvmul U v) (mvmul U v1) (mvmul (mmul (fst b') (fst b)) q). mring.
  - rewrite <- E. destruct (vmod0 _ _), (vmod0 _ _); reflexivity.
Qed.
(** chirality *)
Lemma det3_U a b c : det3 (mvmul U a) (mvmul U b) (mvmul U c) = mdet U * det3 a b c.
Proof. unfold det3. mring. Qed.
Lemma det3_mod n a b c x y z :
  exists k, det3 (vadd a (vscale n x)) (vadd b (vscale n y)) (vadd c (vscale n z)) = det3 a b c + n * k.
Proof.
  exists (det3 x (vadd b (vscale n y)) (vadd c (vscale n z)) + det3 a y (vadd c (vscale n z)) + det3 a b z).
  unfold det3. mring.
Qed.
Lemma vrel_add n u v : vrel n u v -> exists z, mvmul U u = vadd v (vscale n z).
Proof. intros (z & E). exists z. rewrite <- E. mring. Qed.
Lemma det3_rel n w w' v v' R S : 0 < n -> mdet U = 1 -> rrel R S -> vrel n w w' -> vrel n v v' ->
  exists k, det3 w v (mvmul R v) = det3 w' v' (mvmul S v') + n * k.
Proof.
  intros Hn D A W Wv. destruct (vrel_add _ _ _ W) as (x & X), (vrel_add _ _ _ Wv) as (y & Y).
  rewrite <- (Z.mul_1_l (det3 _ _ _)), <- D, <- det3_U, <- (mvmul_mmul U), A, mvmul_mmul, X, Y.
  replace (mvmul S (vadd v' (vscale n y))) with (vadd (mvmul S v') (vscale n (mvmul S y))) by mring.
  apply det3_mod.
Qed.
End Invariance.

Lemma NoDup_map_on {A B} (f : A -> B) l : NoDup l -> (forall x y, In x l -> In y l -> f x = f y -> x = y) ->
  NoDup (map f l).
Proof.
  induction 1 as [| x l Hx N IH]; intros J; cbn [map]; constructor.
  - intros H. apply in_map_iff in H. destruct H as (y & E & Hy). apply Hx.
    replace x with y; auto. apply J; auto; [right | left]; auto.
  - apply IH. intros a b Ha Hb. apply J; right; auto.
Qed.
Lemma NoDup_map_inj {A B} (f : A -> B) l x y : NoDup (map f l) -> In x l -> In y l -> f x = f y -> x = y.
Proof.
  induction l as [| a l IH]; cbn [map In]; [tauto |]. intros N Hx Hy E. inversion N as [| ? ? Na N']; subst.
  destruct Hx as [<- | Hx], Hy as [<- | Hy]; auto; exfalso; apply Na; apply in_map_iff; eauto.
Qed.

Section Match.
Variables (U V : mat3) (q : vec3) (d : Z) (core core' : list op).
Hypothesis UV : mmul U V = I3.
Hypothesis Hd : 0 < d.
Hypothesis Gc : good_core core.
Hypothesis Gc' : good_core core'.
Definition exact (o o' : op) : Prop :=
  rrel U (fst o) (fst o') /\ vadd (vscale d (vsub (mvmul U (snd o)) (snd o'))) (vsub q (mvmul (fst o') q)) = v0.
Hypothesis T : forall o, pgroup core o -> exists o', pgroup core' o' /\ exact o o'.
Hypothesis S : forall o', pgroup core' o' -> exists o, pgroup core o /\ exact o o'.
Local Notation rr := (fun m m' : op => rrel U (fst m) (fst m')).
Lemma in_pgroup c m : In m c -> pgroup c m.
Proof. intros H. exists m. split; auto. split; auto. apply vcong12_refl. Qed.
Lemma core_match : matched rr core core'.
Proof.
  destruct Gc as (N & _), Gc' as (N' & _). apply matched_intro.
  - eapply NoDup_map_inv; eauto.
  - eapply NoDup_map_inv; eauto.
  - intros m Hm. destruct (T m (in_pgroup _ _ Hm)) as (o' & (m' & Hm' & E & _) & (R & _)).
    exists m'. split; auto. rewrite E. exact R.
  - intros m' Hm'. destruct (S m' (in_pgroup _ _ Hm')) as (o & (m & Hm & E & _) & (R & _)).
    exists m. split; auto. rewrite E. exact R.
  - intros m n y Hm Hn Hy A B. apply (NoDup_map_inj fst core); auto. eapply rrel_inj; eauto.
  - intros y m n Hy Hm Hn A B. apply (NoDup_map_inj fst core'); auto. eapply rrel_fun; eauto.
Qed.
Lemma sel_in K k c m : In m (sel K k c) <-> In m c /\ is_kind K (fst m) = true /\ mpow (fst m) k = I3.
Proof.
  unfold sel. rewrite filter_In. destruct (is_kind K (fst m)).
  - rewrite meqb_eq. tauto.
  - split; [intros [_ H]; discriminate | intros (_ & H & _); discriminate].
Qed.
Lemma sel_rel K k m m' : rr m m' -> is_kind K (fst m) = true /\ mpow (fst m) k = I3 <->
  is_kind K (fst m') = true /\ mpow (fst m') k = I3.
Proof.
  intros R. rewrite (rrel_kind U V UV K _ _ R).
  assert (E := rrel_eq U V UV _ _ _ _ (rrel_pow U _ _ k R) (rrel_I U)). rewrite <- !meqb_eq, E. tauto.
Qed.
Lemma reps_in n l a : In a (reps n l) <-> exists m c, In m l /\ In c (box n) /\ a = (fst m, vadd (snd m) (vscale 12 c)).
Proof.
  unfold reps. rewrite in_map_iff. split.
  - intros ((m, c) & <- & H). apply in_prod_iff in H. exists m, c. tauto.
  - intros (m & c & Hm & Hc & ->). exists (m, c). split; auto. apply in_prod_iff. auto.
Qed.
Lemma vadd_cancel a b c : vadd a b = vadd a c -> b = c.
Proof.
  intros H. pose proof (f_equal vx H). pose proof (f_equal vy H). pose proof (f_equal vz H).
  apply vec3_ext; cbn [vadd vx vy vz] in *; lia.
Qed.
Lemma sel_NoDup K k c : good_core c -> NoDup (sel K k c).
Proof. intros (N & _). apply NoDup_filter. eapply NoDup_map_inv; eauto. Qed.
Lemma reps_NoDup n K k c : good_core c -> NoDup (reps n (sel K k c)).
Proof.
  intros G. apply NoDup_map_on.
  - apply NoDup_prod; [apply sel_NoDup; auto | apply box_NoDup].
  - intros (m, a) (m', a') H H' E. apply in_prod_iff in H, H'. destruct H as [H _], H' as [H' _].
    apply sel_in in H, H'. unfold opx in E; cbn [fst snd] in E.
    assert (m = m') by (apply (NoDup_map_inj fst c); [apply G | tauto | tauto | exact (f_equal fst E)]).
    subst m'. f_equal. apply (vscale_inj 12); [lia |]. apply (vadd_cancel (snd m)). exact (f_equal snd E).
Qed.
Lemma reps_group n K k c a : In a (reps n (sel K k c)) -> pgroup c a.
Proof.
  intros H. apply reps_in in H. destruct H as (m & z & Hm & _ & ->). apply sel_in in Hm.
  exists m. split; [tauto |]. split; auto. cbn [snd]. apply vcong12_scale. exists z. mring.
Qed.
Lemma reps_kind n K k c a : In a (reps n (sel K k c)) -> is_kind K (fst a) = true /\ mpow (fst a) k = I3.
Proof. intros H. apply reps_in in H. destruct H as (m & z & Hm & _ & ->). apply sel_in in Hm. apply Hm. Qed.
(** an operation of the group is equivalent to a representative *)
Lemma reps_repr n K k c o : (0 < n)%nat -> pgroup c o -> is_kind K (fst o) = true -> mpow (fst o) k = I3 ->
  exists b z, In b (reps n (sel K k c)) /\ fst b = fst o /\ vsub (snd o) (snd b) = vscale (12 * Z.of_nat n) z.
Proof.
  intros Hn (m & Hm & E & C) Hk Hp. apply vcong12_scale in C. destruct C as (z & C).
  exists (fst m, vadd (snd m) (vscale 12 (vmodn (Z.of_nat n) z))), (vdivn (Z.of_nat n) z).
  split; [| split; auto].
  - apply reps_in. exists m, (vmodn (Z.of_nat n) z). split; [| split; auto using vmodn_box].
    apply sel_in. rewrite E. auto.
  - cbn [snd]. replace (snd o) with (vadd (snd m) (vscale 12 z)) by (rewrite <- C; mring).
    rewrite (vmodn_eq (Z.of_nat n) z) at 1 by lia. generalize (vmodn (Z.of_nat n) z) (vdivn (Z.of_nat n) z). mring.
Qed.
Lemma reps_match n K k : (0 < n)%nat ->
  matched (orel U q d (Z.of_nat n)) (reps n (sel K k core)) (reps n (sel K k core')).
Proof.
  intros Hn. assert (Det := U_det U V UV). apply matched_intro; auto using reps_NoDup.
  - intros a Ha. destruct (reps_kind _ _ _ _ _ Ha) as (Hk & Hp).
    destruct (T a (reps_group _ _ _ _ _ Ha)) as (o' & G' & (R & E)).
    destruct (proj1 (sel_rel K k a o' R) (conj Hk Hp)) as (Hk' & Hp').
    destruct (reps_repr n K k core' o' Hn G' Hk' Hp') as (b & z & Hb & Eb & Z).
    exists b. split; auto. split; [rewrite Eb; exact R |]. exists z. rewrite Eb.
    replace (vscale (12 * Z.of_nat n * d) z) with (vscale d (vscale (12 * Z.of_nat n) z)) by mring.
    rewrite <- Z. rewrite <- (vadd_0_r (vscale d (vsub (snd o') (snd b)))), <- E. mring.
  - intros b Hb. destruct (reps_kind _ _ _ _ _ Hb) as (Hk & Hp).
    destruct (S b (reps_group _ _ _ _ _ Hb)) as (o & G & (R & E)).
    destruct (proj2 (sel_rel K k o b R) (conj Hk Hp)) as (Hk' & Hp').
    destruct (reps_repr n K k core o Hn G Hk' Hp') as (a & z & Ha & Ea & Z).
    exists a. split; auto. split; [rewrite Ea; exact R |]. exists (vopp (mvmul U z)).
    replace (snd a) with (vsub (snd o) (vscale (12 * Z.of_nat n) z)) by (rewrite <- Z; mring).
    rewrite <- (vadd_0_r (vscale (12 * Z.of_nat n * d) (vopp (mvmul U z)))), <- E. mring.
  - intros a a' b Ha Ha' Hb [R (z & Z)] [R' (z' & Z')].
    assert (ER : fst a = fst a') by (eapply rrel_inj; eauto).
    apply reps_in in Ha, Ha'. destruct Ha as (m & c & Hm & Hc & ->), Ha' as (m' & c' & Hm' & Hc' & ->).
    cbn [fst snd] in *. apply sel_in in Hm, Hm'.
    assert (m = m') by (apply (NoDup_map_inj fst core); [apply Gc | tauto | tauto | exact ER]). subst m'.
    f_equal. f_equal. f_equal. apply (box_eq n _ _ (mvmul V (vsub z z'))); auto.
    apply (vscale_inj (12 * d)); [lia |]. apply (mvmul_inj U); auto.
    replace (mvmul U (vscale (12 * d) (vscale (Z.of_nat n) (mvmul V (vsub z z'))))) with
      (vscale (12 * Z.of_nat n * d) (mvmul (mmul U V) (vsub z z'))) by mring.
    rewrite UV, mvmul_I.
    replace (vscale (12 * Z.of_nat n * d) (vsub z z')) with
      (vsub (vscale (12 * Z.of_nat n * d) z) (vscale (12 * Z.of_nat n * d) z')) by mring.
    rewrite <- Z, <- Z'. mring.
  - intros a b b' Ha Hb Hb' [R (z & Z)] [R' (z' & Z')].
    assert (ER : fst b = fst b') by (eapply rrel_fun; eauto).
    apply reps_in in Hb, Hb'. destruct Hb as (m & c & Hm & Hc & ->), Hb' as (m' & c' & Hm' & Hc' & ->).
    cbn [fst snd] in *. apply sel_in in Hm, Hm'.
    assert (m = m') by (apply (NoDup_map_inj fst core'); [apply Gc' | tauto | tauto | exact ER]). subst m'.
    f_equal. f_equal. f_equal. apply (box_eq n _ _ (vsub z' z)); auto.
    apply (vscale_inj (12 * d)); [lia |].
    replace (vscale (12 * d) (vscale (Z.of_nat n) (vsub z' z))) with
      (vsub (vscale (12 * Z.of_nat n * d) z') (vscale (12 * Z.of_nat n * d) z)) by mring.
    rewrite <- Z, <- Z'. mring.
Qed.
Lemma box_match n : (0 < n)%nat -> matched (vrel U (Z.of_nat n)) (box n) (box n).
Proof.
  intros Hn. assert (Det := U_det U V UV). assert (N0 : Z.of_nat n <> 0) by lia.
  apply matched_intro; auto using box_NoDup.
  - intros u _. exists (vmodn (Z.of_nat n) (mvmul U u)). split; [apply vmodn_box; auto |].
    exists (vdivn (Z.of_nat n) (mvmul U u)). rewrite (vmodn_eq (Z.of_nat n) (mvmul U u)) at 1 by auto. mring.
  - intros v _. exists (vmodn (Z.of_nat n) (mvmul V v)). split; [apply vmodn_box; auto |].
    exists (vopp (mvmul U (vdivn (Z.of_nat n) (mvmul V v)))).
    rewrite <- (mvmul_I v) at 2. rewrite <- UV, mvmul_mmul.
    assert (E := vmodn_eq (Z.of_nat n) (mvmul V v) N0). rewrite E at 2. mring.
  - intros u u' v Hu Hu' Hv (z & Z) (z' & Z'). apply (box_eq n _ _ (mvmul V (vsub z z'))); auto.
    apply (mvmul_inj U); auto. rewrite mvmul_vscale, <- mvmul_mmul, UV, mvmul_I.
    replace (vscale (Z.of_nat n) (vsub z z')) with (vsub (vscale (Z.of_nat n) z) (vscale (Z.of_nat n) z')) by mring.
    rewrite <- Z, <- Z'. mring.
  - intros u v v' Hu Hv Hv' (z & Z) (z' & Z'). apply (box_eq n _ _ (vsub z' z)); auto.
    replace (vscale (Z.of_nat n) (vsub z' z)) with (vsub (vscale (Z.of_nat n) z') (vscale (Z.of_nat n) z)) by mring.
    rewrite <- Z, <- Z'. mring.
Qed.
Lemma rcount_rel K n w w' s : 0 < n -> vrel U n w w' -> rcount K core n w s = rcount K core' n w' s.
Proof.
  intros Hn W. apply (matched_zsum rr); [apply core_match |]. intros m m' _ _ R.
  rewrite (rrel_kind U V UV K _ _ R), (cond_rel U V UV n w w' _ _ s Hn R W). reflexivity.
Qed.
Lemma reps_powt n K k a b : In a (reps n (sel K k core)) -> orel U q d (Z.of_nat n) a b ->
  vrel U (12 * Z.of_nat n) (powt (fst a) (snd a) k) (powt (fst b) (snd b) k).
Proof.
  intros Ha R. eapply orel_powt; eauto. apply (reps_kind _ _ _ _ _ Ha).
Qed.
Lemma torsion_match n K k : (0 < n)%nat ->
  matched (orel U q d (Z.of_nat n)) (torsion n K k core) (torsion n K k core').
Proof.
  intros Hn. apply matched_filter; [apply reps_match; auto |]. intros a b Ha _ R.
  apply (vrel_mod0 U V UV); [lia |]. eapply reps_powt; eauto.
Qed.
Lemma vrel_div w w' n : vrel U (12 * n) (vscale 12 w) (vscale 12 w') -> vrel U n w w'.
Proof.
  intros (z & E). exists z. apply (vscale_inj 12); [lia |].
  replace (vscale 12 (vscale n z)) with (vscale (12 * n) z) by mring. rewrite <- E. mring.
Qed.
Lemma vdivn_scale w : vdivn 12 (vscale 12 w) = w.
Proof. apply vec3_ext; cbn [vdivn vmap vscale vx vy vz]; rewrite Z.mul_comm; apply Z.div_mul; lia. Qed.
Lemma ev_invariant F : formula_pos F = true -> (chiral F = true -> mdet U = 1) -> ev core F = ev core' F.
Proof.
  destruct F as [n K k K1 s1 K2 s2 | n K k K1 l | n K k m s K1 s1 | n K k c]; cbn [formula_pos chiral ev]; intros P C.
  - apply Nat.ltb_lt in P. apply (matched_zsum (orel U q d (Z.of_nat n))); [apply reps_match; auto |].
    intros a b Ha Hb R. assert (W := reps_powt _ _ _ _ _ Ha R). cbv zeta.
    assert (N : 0 < 12 * Z.of_nat n) by lia.
    rewrite (rcount_rel K1 _ _ _ s1 N W), (rcount_rel K2 _ _ _ s2 N W). reflexivity.
  - apply Nat.ltb_lt in P. cbv zeta. apply (matched_zsum (orel U q d (Z.of_nat n))); [apply torsion_match; auto |].
    intros a b Ha Hb R. apply (matched_zsum (orel U q d (Z.of_nat n))); [apply torsion_match; auto |].
    intros a' b' Ha' Hb' R'. rewrite (commute_rel U V q d UV Hd (Z.of_nat n) a b a' b'); auto. lia.
  - apply andb_true_iff in P. destruct P as [P P']. apply Nat.ltb_lt in P, P'.
    apply (matched_zsum (orel U q d (Z.of_nat n))); [apply torsion_match; auto |].
    intros a b Ha Hb [R _]. apply (matched_zsum (vrel U (Z.of_nat m))); [apply box_match; auto |].
    intros v v' _ _ W. assert (N : 0 < Z.of_nat m) by lia.
    rewrite (cond_rel U V UV (Z.of_nat m) v v' _ _ s N R W), (rcount_rel _ _ _ _ _ N W). reflexivity.
  - apply Nat.ltb_lt in P. specialize (C eq_refl).
    apply (matched_zsum (orel U q d (Z.of_nat n))); [apply reps_match; auto |].
    intros a b Ha Hb R. assert (W := reps_powt _ _ _ _ _ Ha R). cbv zeta.
    set (w := powt (fst a) (snd a) k) in *. set (w' := powt (fst b) (snd b) k) in *.
    assert (W12 : vrel U 12 w w').
    { destruct W as (z & E). exists (vscale (Z.of_nat n) z). rewrite E. mring. }
    rewrite (vrel_mod0 U V UV 12 w w' ltac:(lia) W12). destruct (vmod0 12 w') eqn:M'; [| reflexivity].
    assert (M : vmod0 12 w = true) by (rewrite (vrel_mod0 U V UV 12 w w' ltac:(lia) W12); exact M').
    apply vmod0_iff in M, M'; try lia. destruct M as (x & Ex), M' as (x' & Ex'). rewrite Ex, Ex' in *.
    apply vrel_div in W. rewrite !vdivn_scale.
    apply (matched_zsum (vrel U (Z.of_nat n))); [apply box_match; auto |].
    intros v v' _ _ Wv. destruct R as [R _].
    destruct (det3_rel U (Z.of_nat n) x x' v v' _ _ ltac:(lia) C R W Wv) as (j & ->).
    replace (det3 x' v' (mvmul (fst b) v') + Z.of_nat n * j - c) with
      (det3 x' v' (mvmul (fst b) v') - c + j * Z.of_nat n) by ring.
    rewrite Z_mod_plus_full. reflexivity.
Qed.
End Match.

(** ** The invariant of a primitive group: numbers of operations of each kind, and the formulas
    chosen for that point group *)
Definition kind_count (core : list op) (K : kind) : Z := zsum (fun m => if is_kind K (fst m) then 1 else 0) core.
Definition profile (kinds : list kind) (choose : list Z -> list formula) (core : list op) : list Z * list Z :=
  let c := map (kind_count core) kinds in (c, map (ev core) (choose c)).
Lemma exact_of_carries f U V o o' : invertible f -> ch_M f = mscale (ch_d f) U -> mmul U V = I3 ->
  carries f o o' -> exact U (ch_q f) (ch_d f) o o'.
Proof.
  intros [Hd Hm] EM UV C. apply carries_iff in C; auto. destruct C as [C1 C2]. rewrite EM in C1, C2. split.
  - unfold rrel. apply (mscale_inj (ch_d f)); [lia |]. rewrite <- mmul_mscale_l, <- mmul_mscale_r. exact C1.
  - replace (vscale (ch_d f) (vsub (mvmul U (snd o)) (snd o'))) with
      (vsub (mvmul (mscale (ch_d f) U) (snd o)) (vscale (ch_d f) (snd o'))) by mring.
    clear - C2. set (x := mvmul (mscale (ch_d f) U) (snd o)) in *. set (y := mvmul (fst o') (ch_q f)) in *.
    pose proof (f_equal vx C2). pose proof (f_equal vy C2). pose proof (f_equal vz C2).
    apply vec3_ext; cbn [vadd vsub vscale vx vy vz v0] in *; lia.
Qed.
Lemma profile_invariant f kinds choose core core' :
  good_core core -> good_core core' -> invertible f -> turns_into f (pgroup core) (pgroup core') ->
  (forall c F, In F (choose c) -> formula_pos F = true /\ (chiral F = true -> keeps_handedness f)) ->
  profile kinds choose core = profile kinds choose core'.
Proof.
  intros G G' I Tu Ok. destruct (unimodular_part f core core' G G' I Tu) as (U & V & EM & UV).
  assert (Hd := proj1 I). destruct Tu as [T0 S0].
  assert (T : forall o, pgroup core o -> exists o', pgroup core' o' /\ exact U (ch_q f) (ch_d f) o o').
  { intros o Ho. destruct (T0 o Ho) as (o' & Ho' & C). exists o'. split; auto. eapply exact_of_carries; eauto. }
  assert (S : forall o', pgroup core' o' -> exists o, pgroup core o /\ exact U (ch_q f) (ch_d f) o o').
  { intros o' Ho'. destruct (S0 o' Ho') as (o & Ho & C). exists o. split; auto. eapply exact_of_carries; eauto. }
  assert (Cm := core_match U V (ch_q f) (ch_d f) core core' UV G G' T S).
  assert (Ec : map (kind_count core) kinds = map (kind_count core') kinds).
  { apply map_ext. intros K. apply (matched_zsum (fun m m' : op => rrel U (fst m) (fst m'))); auto.
    intros m m' _ _ R. rewrite (rrel_kind U V UV K _ _ R). reflexivity. }
  unfold profile. rewrite Ec. cbv zeta. f_equal. apply map_ext_in. intros F HF.
  destruct (Ok _ F HF) as (P & K). apply (ev_invariant U V (ch_q f) (ch_d f)); auto.
  intros C. specialize (K C). unfold keeps_handedness in K. rewrite EM, mdet_mscale in K.
  destruct (U_unimodular U V UV) as [E | E]; auto. rewrite E in K. nia.
Qed.
