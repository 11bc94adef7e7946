(** * PropHash: property C74: results do not depend on the random seed of the hash tables. *)
From Verif Require Import Base Notations Parser Seitz F64 Jones Rotations Tables Generate Positions
  Spec SpecHall SpecHash Algebra.
Open Scope Z_scope.

(** ** Support *)
Section Refine.
Variable T : tables.
Hypothesis L : lawful T.
Definition same_set (s : hset T) (l : list vec3) : Prop := forall t, hset_get T s t = set_mem t l.
Definition same_map (m : hmap T) (mp : trmap) : Prop :=
  forall R, match hmap_get T m R, map_get mp R with
            | None, None => True | Some s, Some l => same_set s l | _, _ => False end.
Definition same_state (a : list seitz * hmap T) (b : gstate) : Prop := fst a = g_list b /\ same_map (snd a) (g_map b).
Lemma set_insert s l t : same_set s l -> same_set (hset_insert T s t) (t :: l).
Proof.
  intros S u. destruct L as (_ & Li & _). apply eq_true_iff_eq. rewrite Li, S. unfold set_mem. cbn [existsb].
  rewrite orb_true_iff, veqb_eq. split; intros [E | E]; auto.
Qed.
Lemma map_get_add mp R t R' : map_get (map_add mp R t) R' =
  if meqb R R' then Some (t :: match map_get mp R with Some l => l | None => [] end) else map_get mp R'.
Proof.
  induction mp as [| [R0 s] r IH]; cbn [map_add map_get].
  - destruct (meqb R' R) eqn:A, (meqb R R') eqn:B; auto; [apply meqb_eq in A; subst; rewrite meqb_refl in B; discriminate | apply meqb_eq in B; subst; rewrite meqb_refl in A; discriminate].
  - destruct (meqb R R0) eqn:A.
    + apply meqb_eq in A. subst R0. cbn [map_get]. destruct (meqb R' R) eqn:C.
      * apply meqb_eq in C. subst. now rewrite meqb_refl.
      * destruct (meqb R R') eqn:B; auto. apply meqb_eq in B. subst. rewrite meqb_refl in C. discriminate.
    + cbn [map_get]. destruct (meqb R' R0) eqn:C; auto. apply meqb_eq in C. subst. now rewrite A.
Qed.
Lemma map_insert m mp R t : same_map m mp ->
  same_map (hmap_insert T m R (hset_insert T (match hmap_get T m R with Some s => s | None => hset_new T end) t)) (map_add mp R t).
Proof.
  intros S R'. destruct L as (Ln & _ & _ & Ls & Lo). rewrite map_get_add. destruct (meqb R R') eqn:E.
  - apply meqb_eq in E. subst R'. rewrite Ls. apply set_insert. specialize (S R).
    destruct (hmap_get T m R), (map_get mp R); try contradiction; auto; try (intros u; now rewrite Ln).
  - rewrite Lo; [apply S |]. intros ->. rewrite meqb_refl in E. discriminate.
Qed.
Lemma step_same lt a b m : same_state a b ->
  fst (add_to_list_h T lt a m) = fst (add_to_list lt b m) /\ same_state (snd (add_to_list_h T lt a m)) (snd (add_to_list lt b m)).
Proof.
  intros [E S]. unfold add_to_list_h, add_to_list. pose proof (S (rot m)) as Q. pose proof (map_insert _ _ (rot m) (minimal_repr lt (tra m)) S) as I.
  destruct (hmap_get T (snd a) (rot m)) as [s |], (map_get (g_map b) (rot m)) as [l |]; try contradiction.
  - assert (F : forallb (fun tr => negb (hset_get T s (vmap positive_mod (vadd (tra m) tr))) && vforall (fun v => negb (rem12 v =? 0)) (vadd (tra m) tr)) lt
              = forallb (fun tr => negb (set_mem (vmap positive_mod (vadd (tra m) tr)) l) && vforall (fun v => negb (rem12 v =? 0)) (vadd (tra m) tr)) lt).
    { clear - Q. induction lt as [| x r IH]; cbn [forallb]; auto. now rewrite Q, IH. }
    cbv zeta. rewrite F. clear F. match goal with |- context [forallb ?f lt] => destruct (forallb f lt) end; [| split; [reflexivity | split; assumption]].
    rewrite Q. destruct (set_mem _ l); [split; [reflexivity | split; assumption] |].
    split; [reflexivity |]. split; cbn [fst snd g_list g_map]; [now rewrite E | exact I].
  - split; [reflexivity |]. split; cbn [fst snd g_list g_map]; [now rewrite E | exact I].
Qed.
Lemma inner_same lt i : forall js a b, same_state a b -> same_state (inner_loop_h T lt i js a) (inner_loop lt i js b).
Proof.
  induction js as [| j r IH]; intros a b S; cbn [inner_loop_h inner_loop]; auto.
  destruct (step_same lt a b (sz_mul i j) S) as [E S'].
  destruct (add_to_list_h T lt a (sz_mul i j)) as [x a'], (add_to_list lt b (sz_mul i j)) as [y b']. cbn [fst snd] in *. subst y.
  destruct x; auto.
Qed.
Lemma fold_same {X} (f : list seitz * hmap T -> X -> list seitz * hmap T) (g : gstate -> X -> gstate) :
  (forall x a b, same_state a b -> same_state (f a x) (g b x)) -> forall l a b, same_state a b -> same_state (fold_left f l a) (fold_left g l b).
Proof. intros H. induction l as [| x l IH]; intros a b S; cbn [fold_left]; auto. Qed.
Lemma pass_same lt a b : same_state a b -> same_state (one_pass_h T lt a) (one_pass lt b).
Proof.
  intros S. unfold one_pass_h, one_pass. cbv zeta. rewrite (proj1 S). apply fold_same; auto. intros x a' b' S'. now apply inner_same.
Qed.
Lemma loop_same lt : forall fuel a b, same_state a b -> gen_loop_h T fuel lt a = gen_loop fuel lt b.
Proof.
  induction fuel as [| f IH]; intros a b S; cbn [gen_loop_h gen_loop]; auto.
  pose proof (pass_same lt a b S) as S'. cbv zeta. rewrite (proj1 S), (proj1 S'). destruct (Nat.ltb _ _); auto.
Qed.
End Refine.
Lemma obind_assoc {A B C} (x : outcome A) (f : A -> outcome B) (g : B -> outcome C) :
  obind (obind x f) g = obind x (fun a => obind (f a) g).
Proof. destruct x; reflexivity. Qed.
(** ** C74 *)
(** whatever the hash tables do inside: [general_positions] gives the same result *)
Theorem C74_result_independent_of_hashing :
  forall T, lawful T -> forall fuel h, general_positions_h T fuel h = general_positions fuel h.
Proof.
  intros T L fuel h. unfold general_positions_h, general_positions, generate_positions, generate_unsorted.
  rewrite !obind_assoc. destruct (max_equiv_pos h) as [n | w |]; cbn [obind]; auto.
  destruct (capacity_limit <? n); cbn [obind]; auto. rewrite !obind_assoc. destruct (generators h) as [gs | w |]; cbn [obind]; auto.
  cbv zeta. rewrite (loop_same T L _ fuel _ (add_all (translations (ls_char (h_lat h))) (GS [] []) gs)); [reflexivity |].
  unfold add_all. apply fold_same; [intros x a b S; apply (step_same T L _ a b x S) |].
  split; [reflexivity |]. intros R. destruct L as (_ & _ & L & _). cbn [snd g_map map_get]. now rewrite L.
Qed.
(** in particular two runs with different seeds agree *)
Corollary C74_two_seeds_agree :
  forall T T', lawful T -> lawful T' -> forall fuel h, general_positions_h T fuel h = general_positions_h T' fuel h.
Proof. intros T T' A B fuel h. now rewrite !C74_result_independent_of_hashing. Qed.
(** hash tables with buckets keep the promise, for every hash function and number of buckets *)
Lemma nth_set_nth {A} (x : list A) : forall n b k, nth k (set_nth n x b) [] = if Nat.eqb n k then x else nth k b [].
Proof.
  induction n as [| n IH]; intros [| y b] [| k]; cbn [set_nth nth Nat.eqb]; auto.
  - destruct k; reflexivity.
  - rewrite IH. destruct (Nat.eqb n k); destruct k; reflexivity.
Qed.
Theorem C74_buckets_lawful : forall hash_mat hash_vec width, lawful (bucket_tables hash_mat hash_vec width).
Proof.
  intros hm hv w. unfold lawful, bucket_tables. cbn -[Nat.modulo]. unfold bucket. split; [| split; [| split; [| split]]].
  - intros t. destruct (hv t mod S w)%nat; reflexivity.
  - intros s t u. rewrite nth_set_nth. destruct (Nat.eqb_spec (hv t mod S w) (hv u mod S w)) as [E | E].
    + rewrite <- E. cbn [existsb]. rewrite orb_true_iff, veqb_eq. split; intros [X | X]; auto.
    + split; [intros X; auto |]. intros [-> | X]; [contradiction | exact X].
  - intros R. destruct (hm R mod S w)%nat; reflexivity.
  - intros m R s. rewrite nth_set_nth, Nat.eqb_refl. cbn [find fst]. now rewrite meqb_refl.
  - intros m R s R' N. rewrite nth_set_nth. destruct (Nat.eqb_spec (hm R mod S w) (hm R' mod S w)) as [E | E]; [| reflexivity].
    rewrite <- E. cbn [find fst]. destruct (meqb R' R) eqn:Q; [| reflexivity]. apply meqb_eq in Q. congruence.
Qed.
(** the law is not decoration: with a table that forgets (so not lawful) the same program gives
    another result already for P 2: the rotation is added again and again *)
Definition forgetful : tables :=
  {| hset := unit; hset_new := tt; hset_get := fun _ _ => false; hset_insert := fun _ _ => tt;
     hmap := unit; hmap_new := tt; hmap_get := fun _ _ => None; hmap_insert := fun _ _ _ => tt |}.
Example C74_forgetful_differs : exists h, try_from_str "P 2" = Done (Some h) /\ ~ lawful forgetful /\
  general_positions_h forgetful 3 h <> general_positions 3 h.
Proof.
  eexists. split; [vm_compute; reflexivity |]. split.
  - intros (_ & _ & _ & L & _). specialize (L tt I3 tt). discriminate L.
  - vm_compute. discriminate.
Qed.
