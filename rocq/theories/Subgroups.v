(** * Subgroups: all multiplicatively closed sets of a finite list of matrices (proof support). *)
From Coq Require Import Permutation.
From Verif Require Import Base Notations Parser Seitz Spec SpecXyz SpecTables Algebra PropSeitz PropJones.
Open Scope Z_scope.
Local Notation length := List.length.

Definition mset := list bool.
Definition mem (s : mset) (i : nat) : bool := nth i s false.
Fixpoint put (s : mset) (i : nat) : mset :=
  match s, i with
  | [], _ => []
  | _ :: r, O => true :: r
  | b :: r, S i => b :: put r i
  end.
Lemma mem_put : forall s i j, mem (put s i) j = true -> mem s j = true \/ i = j.
Proof.
  unfold mem. induction s as [| b s IH]; intros i j H; [destruct i, j; discriminate |].
  destruct i as [| i], j as [| j]; cbn [put nth] in *; auto. destruct (IH _ _ H); auto.
Qed.
Section Closure.
Variable tab : list (list nat).
Variable gens : list nat.
Definition times (i j : nat) : nat := nth j (nth i tab []) 0%nat.
(** multiply [x] on the right by each generator, collecting what is new *)
Fixpoint extend (x : nat) (gs : list nat) (s : mset) (new : list nat) : mset * list nat :=
  match gs with
  | [] => (s, new)
  | g :: gs =>
      let y := times x g in
      if mem s y then extend x gs s new else extend x gs (put s y) (y :: new)
  end.
Fixpoint close (fuel : nat) (todo : list nat) (s : mset) : mset :=
  match fuel, todo with
  | S f, x :: todo => let '(s', todo') := extend x gens s todo in close f todo' s'
  | _, _ => s
  end.
Variable P : nat -> Prop.
Hypothesis Pgens : forall g, In g gens -> P g.
Hypothesis Ptimes : forall i j, P i -> P j -> P (times i j).
Lemma extend_sound x : P x -> forall gs s new s' new', (forall g, In g gs -> P g) ->
  (forall i, mem s i = true -> P i) -> (forall i, In i new -> P i) ->
  extend x gs s new = (s', new') ->
  (forall i, mem s' i = true -> P i) /\ (forall i, In i new' -> P i).
Proof.
  intros Px. induction gs as [| g gs IH]; intros s new s' new' G Hs Hn E; cbn [extend] in E.
  { injection E as <- <-. auto. }
  assert (Py : P (times x g)) by (apply Ptimes; [exact Px | apply G; now left]).
  assert (G' : forall g', In g' gs -> P g') by (intros g' I; apply G; now right).
  destruct (mem s (times x g)).
  - exact (IH _ _ _ _ G' Hs Hn E).
  - apply (IH _ _ _ _ G') in E; auto.
    + intros i H. destruct (mem_put _ _ _ H) as [H' | <-]; auto.
    + intros i [<- | H]; auto.
Qed.
Lemma close_sound : forall fuel todo s, (forall i, mem s i = true -> P i) -> (forall i, In i todo -> P i) ->
  forall i, mem (close fuel todo s) i = true -> P i.
Proof.
  induction fuel as [| f IH]; intros todo s Hs Ht i H; [exact (Hs i H) |].
  destruct todo as [| x todo]; cbn [close] in H; [exact (Hs i H) |].
  destruct (extend x gens s todo) as [s' todo'] eqn:E.
  destruct (extend_sound x (Ht x (or_introl eq_refl)) gens s todo s' todo' Pgens Hs (fun i I => Ht i (or_intror I)) E) as [A B].
  exact (IH todo' s' A B i H).
Qed.
End Closure.

Fixpoint index_of (R : mat3) (G : list mat3) : nat :=
  match G with [] => 0%nat | X :: r => if meqb X R then 0%nat else S (index_of R r) end.
Definition table_of (G : list mat3) : list (list nat) :=
  map (fun a => map (fun b => index_of (mmul a b) G) G) G.
Definition empty_set (n : nat) : mset := repeat false n.
(** the set generated by [gens], with the identity (of index [e]) *)
Definition closure (tab : list (list nat)) (e : nat) (gens : list nat) : mset :=
  let n := length tab in close tab gens (S n) [e] (put (empty_set n) e).
Fixpoint mset_eqb (s t : mset) : bool :=
  match s, t with
  | [], [] => true
  | a :: s, b :: t => Bool.eqb a b && mset_eqb s t
  | _, _ => false
  end.
Lemma mset_eqb_eq : forall s t, mset_eqb s t = true -> s = t.
Proof.
  induction s as [| a s IH]; intros [| b t] H; cbn in H; try discriminate; auto.
  apply andb_true_iff in H. destruct H as [A B]. apply eqb_prop in A. subst. f_equal. auto.
Qed.
Fixpoint mset_le (s t : mset) : bool :=
  match s, t with
  | [], [] => true
  | a :: s, b :: t => implb a b && mset_le s t
  | _, _ => false
  end.
Lemma mset_le_spec : forall s t, mset_le s t = true -> forall i, mem s i = true -> mem t i = true.
Proof.
  unfold mem. induction s as [| a s IH]; intros [| b t] H i K; cbn in H; try discriminate; auto.
  apply andb_true_iff in H. destruct H as [A B]. destruct i as [| i]; cbn [nth] in *; [| exact (IH t B i K)].
  subst a. exact A.
Qed.
Definition known (L : list (list nat * mset)) (s : mset) : bool := existsb (fun p => mset_eqb (snd p) s) L.
(** [L] lists sets with generators; it is closed under adding one more element *)
Definition enough (tab : list (list nat)) (e : nat) (L : list (list nat * mset)) : bool :=
  forallb (fun p => forallb (mem (snd p)) (fst p) &&
    forallb (fun g => mem (snd p) g ||
      (let s := closure tab e (g :: fst p) in known L s && mset_le (snd p) s && mem s g)) (seq 0 (length tab))) L
  && known L (closure tab e []).
(** enumeration, to find such a list *)
Fixpoint search (fuel : nat) (tab : list (list nat)) (e : nat) (todo L : list (list nat * mset)) : list (list nat * mset) :=
  match fuel, todo with
  | S f, p :: todo =>
      let '(todo', L') := fold_left (fun acc g =>
          if mem (snd p) g then acc else
          let s := closure tab e (g :: fst p) in
          if known (snd acc) s then acc else ((g :: fst p, s) :: fst acc, (g :: fst p, s) :: snd acc))
        (seq 0 (length tab)) (todo, L) in
      search f tab e todo' L'
  | _, _ => L
  end.
Definition all_subgroups (G : list mat3) : list (list nat * mset) :=
  let tab := table_of G in let e := index_of I3 G in
  let p := ([], closure tab e []) in search 200 tab e [p] [p].

Section Enough.
Variable tab : list (list nat).
Variable e : nat.
Variable L : list (list nat * mset).
Hypothesis HL : enough tab e L = true.
Variable P : nat -> Prop.
Hypothesis Pe : P e.
Hypothesis Ptimes : forall i j, P i -> P j -> P (times tab i j).
Lemma put_empty n i j : mem (put (empty_set n) i) j = true -> i = j.
Proof.
  intros H. apply mem_put in H. destruct H as [H | H]; auto. exfalso. unfold mem, empty_set in H.
  revert j H. induction n as [| n IH]; intros [| j] H; cbn in H; try discriminate. eauto.
Qed.
Lemma closure_sound gens : (forall g, In g gens -> P g) -> forall i, mem (closure tab e gens) i = true -> P i.
Proof.
  intros G i H. unfold closure in H. revert i H. apply close_sound; auto.
  - intros i H. apply put_empty in H. subst; auto.
  - intros i [<- | []]. exact Pe.
Qed.
Lemma reach : forall rs, (forall i, In i rs -> P i /\ (i < length tab)%nat) ->
  exists p, In p L /\ (forall i, In i rs -> mem (snd p) i = true) /\ (forall i, mem (snd p) i = true -> P i).
Proof.
  pose proof HL as HL'. unfold enough in HL'. apply andb_true_iff in HL'. destruct HL' as [H0 H1]. rewrite forallb_forall in H0.
  induction rs as [| r rs IH]; intros Hr.
  - unfold known in H1. apply existsb_exists in H1. destruct H1 as (p & Hp & E). apply mset_eqb_eq in E.
    exists p. split; auto. split; [intros i [] |]. rewrite E. apply closure_sound. intros g [].
  - destruct IH as (p & Hp & A & B); [intros i I; apply Hr; now right |].
    specialize (H0 p Hp). apply andb_true_iff in H0. destruct H0 as [Hg Hn].
    rewrite forallb_forall in Hg, Hn. destruct (Hr r (or_introl eq_refl)) as [Pr Lr].
    specialize (Hn r ltac:(apply in_seq; lia)). apply orb_true_iff in Hn. destruct Hn as [Hn | Hn].
    + exists p. split; auto. split; auto. intros i [<- | I]; auto.
    + cbv zeta in Hn. set (s := closure tab e (r :: fst p)) in *. rewrite !andb_true_iff in Hn. destruct Hn as ((K1 & K2) & K3).
      unfold known in K1. apply existsb_exists in K1. destruct K1 as (q & Hq & E). apply mset_eqb_eq in E.
      exists q. split; auto. rewrite E. split.
      * intros i [<- | I]; auto. exact (mset_le_spec _ _ K2 i (A i I)).
      * subst s. apply closure_sound. intros g [<- | I]; auto.
Qed.
End Enough.

Fixpoint select {A} (s : mset) (G : list A) : list A :=
  match s, G with
  | b :: s, x :: G => if b then x :: select s G else select s G
  | _, _ => []
  end.
Lemma select_in {A} : forall (s : mset) (G : list A) x, In x (select s G) <-> exists i, mem s i = true /\ nth_error G i = Some x.
Proof.
  unfold mem. induction s as [| b s IH]; intros G x.
  { split; [intros [] |]. intros ([| i] & H & _); discriminate. }
  destruct G as [| y G]; [split; [intros [] | intros (i & _ & H); destruct i; discriminate] |].
  cbn [select]. assert (K : In x (select s G) <-> exists i, nth (S i) (b :: s) false = true /\ nth_error (y :: G) (S i) = Some x) by apply IH.
  destruct b.
  - split.
    + intros [<- | H]; [exists 0%nat; auto |]. apply K in H. destruct H as (i & H). eauto.
    + intros ([| i] & H & E); [left; cbn in E; congruence |]. right. apply K. eauto.
  - rewrite K. split; [intros (i & H); eauto |]. intros ([| i] & H & E); [discriminate | eauto].
Qed.
Lemma select_NoDup {A} : forall (s : mset) (G : list A), NoDup G -> NoDup (select s G).
Proof.
  induction s as [| b s IH]; intros G H; [constructor |]. destruct G as [| y G]; [constructor |].
  apply NoDup_cons_iff in H. destruct H as [N H]. cbn [select]. destruct b; [| auto]. constructor; auto.
  intros I. apply select_in in I. destruct I as (i & _ & E). apply N. eapply nth_error_In; eauto.
Qed.
Lemma index_of_spec R : forall G, In R G -> nth_error G (index_of R G) = Some R.
Proof.
  induction G as [| X G IH]; intros H; [destruct H |]. cbn [index_of]. destruct (meqb X R) eqn:E.
  - apply meqb_eq in E. subst. reflexivity.
  - destruct H as [-> | H]; [| exact (IH H)]. exfalso. assert (meqb R R = true) by (apply meqb_eq; reflexivity). congruence.
Qed.
Fixpoint meqb_in (R : mat3) (G : list mat3) : bool := match G with [] => false | X :: r => meqb X R || meqb_in R r end.
Lemma meqb_in_spec R : forall G, meqb_in R G = true <-> In R G.
Proof.
  induction G as [| X G IH]; cbn; [split; [discriminate | intros []] |].
  rewrite orb_true_iff, IH, meqb_eq. intuition congruence.
Qed.
(** every set of matrices of [G] that contains the identity and is closed under products is
    one of the listed ones *)
Lemma closed_sets_listed G L : enough (table_of G) (index_of I3 G) L = true -> In I3 G ->
  forall rs, (forall R, In R rs -> In R G) -> In I3 rs ->
    (forall A B, In A rs -> In B rs -> In (mmul A B) rs) ->
  exists p, In p L /\ forall R, In R rs <-> In R (select (snd p) G).
Proof.
  intros HL HI rs Hrs Ie C.
  set (P := fun i => exists R, nth_error G i = Some R /\ In R rs).
  assert (Tl : length (table_of G) = length G) by (unfold table_of; now rewrite map_length).
  destruct (reach (table_of G) (index_of I3 G) L HL P) with (rs := map (fun R => index_of R G) rs) as (p & Hp & A & B).
  - exists I3. split; [apply index_of_spec, HI | exact Ie].
  - intros i j (X & EX & IX) (Y & EY & IY). exists (mmul X Y). split; [| auto].
    unfold times, table_of. erewrite nth_indep with (d' := map (fun b => index_of (mmul X b) G) G).
    2: { rewrite map_length. apply nth_error_Some. congruence. }
    rewrite (map_nth (fun a => map (fun b => index_of (mmul a b) G) G) G X i).
    rewrite (nth_error_nth _ _ X EX).
    erewrite nth_indep with (d' := index_of (mmul X Y) G).
    2: { rewrite map_length. apply nth_error_Some. congruence. }
    rewrite (map_nth (fun b => index_of (mmul X b) G) G Y j), (nth_error_nth _ _ Y EY).
    apply index_of_spec. auto.
  - intros i I. apply in_map_iff in I. destruct I as (R & <- & I). specialize (Hrs R I).
    pose proof (index_of_spec R G Hrs) as E. split; [exists R; auto |]. rewrite Tl. apply nth_error_Some. congruence.
  - exists p. split; auto. intros R. rewrite select_in. split.
    + intros I. exists (index_of R G). split; [| apply index_of_spec; auto]. apply A. apply in_map_iff. eauto.
    + intros (i & M & E). destruct (B i M) as (R' & E' & I). congruence.
Qed.

Definition cubic_subgroups : list (list nat * mset) := Eval vm_compute in all_subgroups cubic48.
Definition hexagonal_subgroups : list (list nat * mset) := Eval vm_compute in all_subgroups hexagonal24.
Lemma cubic_enough : enough (table_of cubic48) (index_of I3 cubic48) cubic_subgroups = true.
Proof. vm_cast_no_check (@eq_refl bool true). Qed.
Lemma hexagonal_enough : enough (table_of hexagonal24) (index_of I3 hexagonal24) hexagonal_subgroups = true.
Proof. vm_cast_no_check (@eq_refl bool true). Qed.
