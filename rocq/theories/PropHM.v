(** * PropHM: the Hermann-Mauguin names of the tables describe the positions (C92) *)
From Verif Require Import Base Notations Parser Seitz F64 Jones Rotations Tables Generate Positions Lookup
  Spec SpecHall SpecText SpecDisplay SpecTables SpecRotation SpecMetric SpecFamily SpecHM
  Algebra GenFacts GroupCheck PropGenerate RowData PropTableGroups PropRotation PropFamily.
Open Scope Z_scope.
Local Notation length := List.length.

(** ** Deciding the parts *)
Lemma in_translations_0 l : In v0 (translations l).
Proof. destruct l; left; reflexivity. Qed.
Definition lookup_name (w : string) : list element := map snd (filter (fun p => String.eqb (fst p) w) element_names).
Definition name_list (w : string) : list element :=
  (lookup_name w ++ (if String.eqb w (before "/" w ++ "/" ++ after "/" w) then lookup_name (before "/" w) ++ lookup_name (after "/" w) else []))%list.
Lemma lookup_spec w e : In e (lookup_name w) <-> In (w, e) element_names.
Proof.
  unfold lookup_name. rewrite in_map_iff. split.
  - intros ((w' & e') & E & I). apply filter_In in I. destruct I as [I W]. cbn [fst snd] in *. apply String.eqb_eq in W. subst. exact I.
  - intros I. exists (w, e). split; [reflexivity |]. apply filter_In. split; [exact I | apply String.eqb_refl].
Qed.
Lemma name_list_spec w e : In e (name_list w) <-> names w e.
Proof.
  unfold name_list, names. rewrite in_app_iff, lookup_spec.
  destruct (String.eqb_spec w (before "/" w ++ "/" ++ after "/" w)) as [E | E].
  - rewrite in_app_iff, !lookup_spec. tauto.
  - cbn [In]. tauto.
Qed.
Lemma names_in w e : In e (name_list w) -> names w e. Proof. exact (proj1 (name_list_spec w e)). Qed.
Lemma in_names w e : names w e -> In e (name_list w). Proof. exact (proj2 (name_list_spec w e)). Qed.
Definition order_b (R : mat3) (n : nat) : bool :=
  Nat.ltb 0 n && (meqb (mpow R n) I3 && forallb (fun k => negb (meqb (mpow R k) I3)) (seq 1 (n - 1))).
Lemma order_b_spec R n : order_b R n = true <-> has_order R n.
Proof.
  unfold order_b, has_order. rewrite !andb_true_iff, Nat.ltb_lt, meqb_eq, forallb_forall. split.
  - intros (A & B & C). repeat split; auto. intros k K E. specialize (C k). rewrite in_seq in C.
    rewrite (proj2 (meqb_eq _ _) E) in C. assert (F : negb true = true) by (apply C; lia). discriminate.
  - intros (A & B & C). repeat split; auto. intros k K. apply in_seq in K. apply negb_true_iff.
    destruct (meqb (mpow R k) I3) eqn:E; [| reflexivity]. apply meqb_eq in E. destruct (C k); [lia | exact E].
Qed.
Definition axis_b (R : mat3) (d : vec3) : bool := negb (veqb d v0) && veqb (mvmul R d) (times (mdet R) d).
Lemma axis_b_spec R d : axis_b R d = true <-> axis_of R d.
Proof.
  unfold axis_b, axis_of. rewrite andb_true_iff, negb_true_iff, veqb_eq, det_spec_mdet. unfold times.
  split; intros [A B]; (split; [| exact B]).
  - intros ->. discriminate.
  - destruct (veqb d v0) eqn:E; [| reflexivity]. apply veqb_eq in E. contradiction.
Qed.
Definition turn_b (e : element) (d : vec3) (R : mat3) : bool :=
  if axis_b R d then
  match e with
  | Axis n _ => if mdet R =? 1 then order_b R n else false
  | BarAxis n => if mdet R =? -1 then order_b (mopp R) n else false
  | Plane _ => if mdet R =? -1 then order_b (mopp R) 2 else false
  end else false.
Lemma turn_b_spec e d R : turn_b e d R = true <-> turn_of e d R.
Proof.
  unfold turn_b, turn_of. rewrite det_spec_mdet, <- axis_b_spec. destruct (axis_b R d).
  - destruct e; rewrite <- order_b_spec, <- Z.eqb_eq;
      match goal with |- context [?a =? ?b] => destruct (a =? b) end; intuition discriminate.
  - intuition discriminate.
Qed.
Definition op_eqb (a b : op) : bool := meqb (fst a) (fst b) && veqb (snd a) (snd b).
Lemma op_eqb_spec a b : op_eqb a b = true -> a = b.
Proof. unfold op_eqb. rewrite andb_true_iff, meqb_eq, veqb_eq. destruct a, b; cbn [fst snd]. intros [-> ->]. reflexivity. Qed.
Definition ccw_b (R : mat3) (d : vec3) : bool := existsb (fun x => 0 <? volume d x (mvmul R x)) [dx; dy; dz].
Definition glide_list (rh : bool) (c : ascii) (d : vec3) : list vec3 :=
  if Ascii.eqb c "m" then [V3 0 0 0]
  else if rh then (if Ascii.eqb c "c" then [V3 12 12 12] else [])
  else if Ascii.eqb c "a" then [times 12 dx] else if Ascii.eqb c "b" then [times 12 dy] else if Ascii.eqb c "c" then [times 12 dz]
  else flat_map (fun p => if veqb (fst p) d then
      let k := if Ascii.eqb c "n" then 12 else 6 in
      if Ascii.eqb c "n" || Ascii.eqb c "d" then
        flat_map (fun s => map (fun t => vadd (times (s * k) (fst (snd p))) (times (t * k) (snd (snd p)))) [1; -1]) [1; -1]
      else [] else []) plane_vectors.
Lemma glide_list_sound rh c d w : In w (glide_list rh c d) -> twice_glide rh c d w.
Proof.
  unfold glide_list, twice_glide.
  destruct (Ascii.eqb_spec c "m") as [-> | Nm]; [intros [<- | []]; left; auto |].
  destruct rh.
  { destruct (Ascii.eqb_spec c "c") as [-> | ]; [intros [<- | []]; right; right; left; auto | intros []]. }
  destruct (Ascii.eqb_spec c "a") as [-> | Na]; [intros [<- | []]; right; left; split; [reflexivity | left; reflexivity] |].
  destruct (Ascii.eqb_spec c "b") as [-> | Nb]; [intros [<- | []]; right; left; split; [reflexivity | right; left; reflexivity] |].
  destruct (Ascii.eqb_spec c "c") as [-> | Nc]; [intros [<- | []]; right; left; split; [reflexivity | right; right; left; reflexivity] |].
  intros I. right. right. right. split; [reflexivity |]. apply in_flat_map in I. destruct I as ((d' & (f & g)) & Ip & I). cbn [fst snd] in I.
  destruct (veqb d' d) eqn:Ed; [| destruct I]. apply veqb_eq in Ed. subst d'. cbv zeta in I.
  destruct (Ascii.eqb_spec c "n") as [-> | Nn]; cbn [orb] in I.
  - apply in_flat_map in I. destruct I as (s & Is & I). apply in_map_iff in I. destruct I as (t & <- & It).
    exists f, g, s, t, 12. repeat split; auto. left. reflexivity.
  - destruct (Ascii.eqb_spec c "d") as [-> | Nd]; [| destruct I].
    apply in_flat_map in I. destruct I as (s & Is & I). apply in_map_iff in I. destruct I as (t & <- & It).
    exists f, g, s, t, 6. repeat split; auto. right. left. reflexivity.
Qed.
Definition some_cells : list vec3 :=
  flat_map (fun a => flat_map (fun b => map (fun c => V3 a b c) [0; -12; 12]) [0; -12; 12]) [0; -12; 12].
(** the sum 1 + R + ... + R^(n-1): the translation of the n-th power is this matrix times t *)
Fixpoint power_sum (R : mat3) (n : nat) : mat3 :=
  match n with O => M3 0 0 0 0 0 0 0 0 0 | S k => madd (mmul R (power_sum R k)) I3 end.
Lemma op_pow_sum R t : forall n, op_pow (R, t) n = (mpow R n, mvmul (power_sum R n) t).
Proof.
  induction n as [| n IH].
  - cbn [op_pow mpow power_sum]. destruct t as [x y z]. reflexivity.
  - cbn [op_pow mpow power_sum]. rewrite IH. unfold op_comp. cbn [fst snd]. f_equal.
    generalize (power_sum R n). intros N. destruct R, N, t. cbv [mvmul mmul madd vadd I3]. cbn. f_equal; ring.
Qed.
Definition shifts (N : mat3) (lat : list vec3) (t : vec3) : list vec3 :=
  flat_map (fun v => let b := mvmul N (vadd t v) in map (fun w => vadd b (mvmul N w)) some_cells) lat.
Definition element_b (rh : bool) (lat : list vec3) (core : list seitz) (d : vec3) (e : element) : bool :=
  existsb (fun m => if turn_b e d (rot m) then
    match e with
    | Axis n k => if negb (Nat.ltb 2 n) || ccw_b (rot m) d then
        meqb (mpow (rot m) n) I3 && (let u := times (12 * Z.of_nat k) d in existsb (veqb u) (shifts (power_sum (rot m) n) lat (tra m))) else false
    | BarAxis _ => true
    | Plane c => meqb (mpow (rot m) 2) I3 && (let us := glide_list rh c d in existsb (fun x => existsb (veqb x) us) (shifts (power_sum (rot m) 2) lat (tra m)))
    end else false) core.
Definition word_b (rh : bool) (lat : list vec3) (core : list seitz) (ds : list vec3) (w : string) : bool :=
  if String.eqb w "1" then forallb (fun d => forallb (fun m => negb (axis_b (rot m) d) || (meqb (rot m) I3 || meqb (rot m) (mopp I3))) core) ds
  else negb (Nat.eqb (length (name_list w)) 0) && forallb (fun e => existsb (fun d => element_b rh lat core d e) ds) (name_list w).
Definition the_letter (hm : string) : option lattice :=
  match hm_words hm with
  | w :: _ => find (fun l => String.eqb w (String (lattice_char l) EmptyString)) [LP; LA; LB; LC; LI; LR; LF]
  | [] => None
  end.
Fixpoint all2 {A B} (f : A -> B -> bool) (a : list A) (b : list B) : bool :=
  match a, b with x :: a, y :: b => f x y && all2 f a b | _, _ => true end.
Lemma all2_spec {A B} (f : A -> B -> bool) : forall a b, all2 f a b = true -> forall i x y, nth_error a i = Some x -> nth_error b i = Some y -> f x y = true.
Proof.
  induction a as [| x a IH]; intros [| y b] H [| i] u v Hu Hv; try discriminate; cbn [all2] in H; apply andb_true_iff in H; destruct H as [H1 H2].
  - injection Hu as <-. injection Hv as <-. exact H1.
  - exact (IH b H2 i u v Hu Hv).
Qed.
Definition lat_eqb (a b : lattice) : bool := Ascii.eqb (lattice_char a) (lattice_char b).
Lemma lat_eqb_spec a b : lat_eqb a b = true -> a = b.
Proof. destruct a, b; intros H; try reflexivity; discriminate. Qed.
Definition name_b (label hm : string) (p : hall * list seitz) : bool :=
  let rh := rhombohedral_axes label in
  let c := ls_char (h_lat (fst p)) in
  match the_letter hm with
  | None => false
  | Some l =>
      lat_eqb (if rh then LP else l) c && (negb rh || lat_eqb l LR) &&
      Nat.leb (length (tl (hm_words hm))) (length (directions label)) &&
      all2 (fun w ds => word_b rh (translations c) (snd p) ds w) (tl (hm_words hm)) (directions label)
  end.
(** a word [1] along a direction that does carry something *)
Definition misfit_b (label hm : string) (p : hall * list seitz) : bool :=
  existsb (fun i => match nth_error (tl (hm_words hm)) i, nth_error (directions label) i with
    | Some w, Some ds => String.eqb w "1" && existsb (fun d => existsb (fun m =>
        axis_b (rot m) d && (negb (meqb (rot m) I3) && negb (meqb (rot m) (mopp I3)))) (snd p)) ds
    | _, _ => false end) (seq 0 3).

(** ** Rotations named *)
Definition turns_named (label hm : string) (core : list seitz) : list (list mat3) :=
  flat_map (fun q => flat_map (fun e => map (fun d => filter (turn_b e d) (map rot core)) (snd q)) (name_list (fst q)))
    (combine (tl (hm_words hm)) (directions label)).
Definition firsts {A} (l : list (list A)) : list A := flat_map (fun x => match x with y :: _ => [y] | [] => [] end) l.
Definition member (R : mat3) (l : list mat3) : bool := existsb (meqb R) l.
Lemma member_spec R l : member R l = true <-> In R l.
Proof.
  unfold member. rewrite existsb_exists. split.
  - intros (S & I & E). apply meqb_eq in E. subst. exact I.
  - intros I. exists R. split; [exact I | apply meqb_eq; reflexivity].
Qed.
Fixpoint spread (fuel : nat) (gens seen front : list mat3) : list mat3 :=
  match fuel with
  | O => seen
  | S k =>
      let new := fold_left (fun acc R => if member R seen then acc else if member R acc then acc else R :: acc)
                   (flat_map (fun S => map (fun R => mmul R S) gens) front) [] in
      match new with [] => seen | _ => spread k gens (new ++ seen)%list new end
  end.
Lemma fold_new_in (seen : list mat3) : forall l acc R,
  In R (fold_left (fun acc R => if member R seen then acc else if member R acc then acc else R :: acc) l acc) -> In R l \/ In R acc.
Proof.
  induction l as [| S l IH]; intros acc R I; cbn [fold_left] in I; [right; exact I |].
  apply IH in I. destruct I as [I | I]; [left; right; exact I |].
  destruct (member S seen); [right; exact I |]. destruct (member S acc); [right; exact I |].
  destruct I as [-> | I]; [left; left; reflexivity | right; exact I].
Qed.
Lemma spread_product (P : mat3 -> Prop) gens : (forall R, In R gens -> P R) -> forall fuel seen front,
  (forall R, In R seen -> product_of P R) -> (forall R, In R front -> product_of P R) ->
  forall R, In R (spread fuel gens seen front) -> product_of P R.
Proof.
  intros Hg. induction fuel as [| k IH]; intros seen front Hs Hf R I; cbn [spread] in I; [exact (Hs R I) |].
  cbv zeta in I. destruct (fold_left _ _ _) as [| x new] eqn:E; [exact (Hs R I) |].
  assert (N : forall R, In R (x :: new) -> product_of P R).
  { intros T IT. rewrite <- E in IT. apply fold_new_in in IT. destruct IT as [IT | []].
    apply in_flat_map in IT. destruct IT as (S & IS & IT). apply in_map_iff in IT. destruct IT as (G & <- & IG).
    apply product_more; auto. }
  apply (IH (x :: new ++ seen)%list (x :: new)); auto.
  intros T [<- | IT]; [apply N; left; reflexivity |]. apply in_app_or in IT. destruct IT as [IT | IT]; [apply N; right; exact IT | exact (Hs T IT)].
Qed.
Definition reach (fuel : nat) (label hm : string) (core : list seitz) : list mat3 :=
  spread fuel (firsts (turns_named label hm core)) [I3] [I3].
Definition complete_b (fuel : nat) (label hm : string) (p : hall * list seitz) : bool :=
  let r := reach fuel label hm (snd p) in forallb (fun m => member (rot m) r) (snd p).
Definition incomplete_b (fuel : nat) (label hm : string) (p : hall * list seitz) : bool :=
  let r := reach fuel label hm (snd p) in
  member I3 r && forallb (fun R => forallb (fun S => member (mmul R S) r) r) (List.concat (turns_named label hm (snd p))) &&
  existsb (fun m => negb (member (rot m) r)) (snd p).

(** ** Soundness, for any set of operations that the data describe *)
Section Data.
Variables (G : op -> Prop) (h : hall) (core : list seitz).
Let lat := translations (ls_char (h_lat h)).
Hypothesis Hin : forall m v w, In m core -> In v lat -> vcong12 w v0 -> G (rot m, vadd (tra m) (vadd v w)).
Hypothesis Hrot : forall R t, G (R, t) -> exists m, In m core /\ rot m = R.
Hypothesis Htra : forall v, G (I3, v) <-> centring (ls_char (h_lat h)) v.
Hypothesis Hcomp : forall a b, G a -> G b -> G (op_comp a b).
Lemma some_cells_whole w : In w some_cells -> vcong12 w v0.
Proof.
  unfold some_cells. intros I. apply in_flat_map in I. destruct I as (a & Ia & I). apply in_flat_map in I. destruct I as (b & Ib & I).
  apply in_map_iff in I. destruct I as (c & <- & Ic).
  assert (K : forall x, In x [0; -12; 12] -> cong12 x 0) by (intros x [<- | [<- | [<- | []]]]; [exists 0 | exists (-1) | exists 1]; reflexivity).
  split; [exact (K a Ia) | split; [exact (K b Ib) | exact (K c Ic)]].
Qed.
Lemma shifts_in m n x : In m core -> mpow (rot m) n = I3 -> In x (shifts (power_sum (rot m) n) lat (tra m)) ->
  exists t, G (rot m, t) /\ op_pow (rot m, t) n = (I3, x).
Proof.
  intros Im E I. unfold shifts in I. apply in_flat_map in I. destruct I as (v & Iv & I). cbv zeta in I. apply in_map_iff in I.
  destruct I as (w & <- & Iw). exists (vadd (tra m) (vadd v w)). split; [apply Hin; auto using some_cells_whole |].
  rewrite op_pow_sum, E. f_equal. generalize (power_sum (rot m) n) (tra m). intros N t. destruct N, t, v, w. cbv [mvmul vadd]. cbn. f_equal; ring.
Qed.
Lemma element_b_sound rh d e : element_b rh lat core d e = true -> has_element rh G d e.
Proof.
  unfold element_b, has_element. intros H. apply existsb_exists in H. destruct H as (m & Im & H).
  destruct (turn_b e d (rot m)) eqn:T; [| discriminate]. apply turn_b_spec in T. destruct e as [n k | n | c].
  - destruct (negb (Nat.ltb 2 n) || ccw_b (rot m) d) eqn:C; [| discriminate]. apply andb_true_iff in H. destruct H as [E H]. cbv zeta in H.
    apply meqb_eq in E. apply existsb_exists in H. destruct H as (x & Ix & X). apply veqb_eq in X. subst x.
    destruct (shifts_in m n _ Im E Ix) as (t & HG & HP). exists (rot m), t. split; [exact HG |]. split; [exact T |]. split; [| exact HP].
    intros L. apply Nat.ltb_lt in L. rewrite L in C. cbn [negb orb] in C. unfold ccw_b in C. apply existsb_exists in C. destruct C as (x & Ix0 & C).
    exists x. split; [exact Ix0 | apply Z.ltb_lt; exact C].
  - exists (rot m), (vadd (tra m) (vadd v0 v0)). split; [| split; [exact T | exact I]].
    apply Hin; [exact Im | apply in_translations_0 |]. repeat split; exists 0; reflexivity.
  - apply andb_true_iff in H. destruct H as [E H]. cbv zeta in H. apply meqb_eq in E. apply existsb_exists in H. destruct H as (x & Ix & X).
    apply existsb_exists in X. destruct X as (u & Iu & X). apply veqb_eq in X. subst u.
    destruct (shifts_in m 2 _ Im E Ix) as (t & HG & HP). exists (rot m), t. split; [exact HG |]. split; [exact T |].
    exists x. split; [apply glide_list_sound; exact Iu | exact HP].
Qed.
Lemma word_b_sound rh ds w : word_b rh lat core ds w = true -> word_fits rh G ds w.
Proof.
  unfold word_b, word_fits. destruct (String.eqb_spec w "1") as [-> | N]; intros H.
  - left. split; [reflexivity |]. intros d R t Id HG A. destruct (Hrot R t HG) as (m & Im & <-).
    rewrite forallb_forall in H. specialize (H d Id). rewrite forallb_forall in H. specialize (H m Im).
    apply axis_b_spec in A. rewrite A in H. cbn [negb orb] in H. apply orb_true_iff in H. rewrite !meqb_eq in H. exact H.
  - right. apply andb_true_iff in H. destruct H as [L H]. split.
    + destruct (name_list w) as [| e l] eqn:E; [discriminate |]. exists e. refine (names_in w e _). rewrite E. left. reflexivity.
    + intros e I. rewrite forallb_forall in H. specialize (H e (proj2 (name_list_spec w e) I)). apply existsb_exists in H.
      destruct H as (d & Id & H). exists d. split; [exact Id | apply element_b_sound; exact H].
Qed.
Lemma name_b_sound label hm : name_b label hm (h, core) = true -> name_fits label hm G.
Proof.
  unfold name_b, name_fits. cbv zeta. cbn [fst snd]. unfold the_letter.
  destruct (hm_words hm) as [| w ws] eqn:W; [discriminate |]. cbn [tl].
  destruct (find _ _) as [l |] eqn:F; [| discriminate]. intros H. rewrite !andb_true_iff in H. destruct H as (((A & B) & C) & D).
  apply find_some in F. destruct F as [_ F]. apply String.eqb_eq in F. exists l, ws. split; [rewrite F; reflexivity |].
  apply lat_eqb_spec in A. split; [rewrite A; exact Htra |]. split; [intros E; rewrite E in B; apply lat_eqb_spec; exact B |].
  split; [apply Nat.leb_le; exact C |]. intros i u ds Hu Hd. pose proof (all2_spec _ _ _ D i u ds Hu Hd) as K. cbv beta in K.
  exact (word_b_sound _ _ _ K).
Qed.
Lemma misfit_sound label hm : misfit_b label hm (h, core) = true -> ~ name_fits label hm G.
Proof.
  unfold misfit_b. intros H (l & ws & W & _ & _ & _ & K). cbn [snd] in H. rewrite W in H. cbn [tl] in H. apply existsb_exists in H.
  destruct H as (i & _ & H). destruct (nth_error ws i) as [w |] eqn:Hw; [| discriminate].
  destruct (nth_error (directions label) i) as [ds |] eqn:Hd; [| discriminate]. apply andb_true_iff in H. destruct H as [W1 H].
  apply String.eqb_eq in W1. subst w. apply existsb_exists in H. destruct H as (d & Id & H). apply existsb_exists in H.
  destruct H as (m & Im & H). rewrite !andb_true_iff, !negb_true_iff in H. destruct H as (A & N1 & N2). apply axis_b_spec in A.
  destruct (K i "1"%string ds Hw Hd) as [(_ & F) | ((e & F) & _)].
  - assert (GG : G (rot m, vadd (tra m) (vadd v0 v0))).
    { apply Hin; [exact Im | apply in_translations_0 |]. repeat split; exists 0; reflexivity. }
    destruct (F d _ _ Id GG A) as [E | E]; apply meqb_eq in E; congruence.
  - exact (in_names _ _ F).
Qed.
Lemma core_in m : In m core -> exists t, G (rot m, t).
Proof.
  intros Im. exists (vadd (tra m) (vadd v0 v0)). apply Hin; [exact Im | apply in_translations_0 |]. repeat split; exists 0; reflexivity.
Qed.
Lemma turns_named_spec label hm R : In R (List.concat (turns_named label hm core)) <-> named_turn label hm G R.
Proof.
  unfold turns_named, named_turn. rewrite in_concat. split.
  - intros (x & Ix & IR). apply in_flat_map in Ix. destruct Ix as ((w & ds) & Iq & Ix). cbn [fst snd] in Ix.
    apply in_flat_map in Ix. destruct Ix as (e & Ie & Ix). apply in_map_iff in Ix. destruct Ix as (d & <- & Id).
    apply filter_In in IR. destruct IR as [IR T]. apply in_map_iff in IR. destruct IR as (m & <- & Im).
    apply In_nth_error in Iq. destruct Iq as (i & Hi). exists i, w, ds, e, d.
    assert (K : forall (a : list string) (b : list (list vec3)) i, nth_error (combine a b) i = Some (w, ds) -> nth_error a i = Some w /\ nth_error b i = Some ds).
    { induction a as [| u a IH]; intros [| v b] [| j] E; try discriminate; cbn in E; [injection E as -> ->; auto | exact (IH b j E)]. }
    destruct (K _ _ _ Hi) as [K1 K2]. split; [exact K1 | split; [exact K2 |]]. split; [exact (names_in w e Ie) |].
    split; [exact Id | split; [apply turn_b_spec; exact T | exact (core_in m Im)]].
  - intros (i & w & ds & e & d & Hw & Hd & Ie & Id & T & (t & HG)). destruct (Hrot R t HG) as (m & Im & <-).
    exists (filter (turn_b e d) (map rot core)). split.
    + apply in_flat_map. exists (w, ds). split.
      * assert (K : forall (a : list string) (b : list (list vec3)) i, nth_error a i = Some w -> nth_error b i = Some ds -> In (w, ds) (combine a b)).
        { induction a as [| u a IH]; intros [| v b] [| j] E F; try discriminate; cbn in E, F.
          - injection E as ->. injection F as ->. left. reflexivity.
          - right. exact (IH b j E F). }
        exact (K _ _ _ Hw Hd).
      * cbn [fst snd]. apply in_flat_map. exists e. split; [exact (in_names w e Ie) |]. apply (in_map (fun d => filter (turn_b e d) (map rot core))). exact Id.
    + apply filter_In. split; [apply in_map; exact Im | apply turn_b_spec; exact T].
Qed.
Lemma firsts_in {A} (l : list (list A)) x : In x (firsts l) -> In x (List.concat l).
Proof.
  unfold firsts. intros I. apply in_flat_map in I. destruct I as (y & Iy & I). apply in_concat. exists y. split; [exact Iy |].
  destruct y; [destruct I |]. destruct I as [-> | []]. left. reflexivity.
Qed.
Lemma product_in_G label hm R : product_of (named_turn label hm G) R -> exists t, G (R, t).
Proof.
  induction 1 as [| R S N _ (t & IH)].
  - exists v0. apply Htra. exists v0. split; [apply in_translations_0 |]. repeat split; exists 0; reflexivity.
  - destruct N as (i & w & ds & e & d & _ & _ & _ & _ & _ & (u & HG)). exists (snd (op_comp (R, u) (S, t))).
    exact (Hcomp _ _ HG IH).
Qed.
Lemma complete_sound fuel label hm : complete_b fuel label hm (h, core) = true -> name_complete label hm G.
Proof.
  unfold complete_b. cbv zeta. cbn [snd]. intros H R. split; [| apply product_in_G].
  intros (t & HG). destruct (Hrot R t HG) as (m & Im & <-). rewrite forallb_forall in H. specialize (H m Im). apply member_spec in H.
  unfold reach in H. refine (spread_product _ _ _ _ _ _ _ _ _ H).
  - intros T IT. exact (proj1 (turns_named_spec label hm T) (firsts_in _ _ IT)).
  - intros T [<- | []]. apply product_none.
  - intros T [<- | []]. apply product_none.
Qed.
Lemma incomplete_sound fuel label hm : incomplete_b fuel label hm (h, core) = true -> ~ name_complete label hm G.
Proof.
  unfold incomplete_b. cbv zeta. cbn [snd]. intros H K. rewrite !andb_true_iff in H. destruct H as ((A & B) & C).
  apply existsb_exists in C. destruct C as (m & Im & C). apply negb_true_iff in C.
  assert (Q : forall R, product_of (named_turn label hm G) R -> member R (reach fuel label hm core) = true).
  { induction 1 as [| R S N _ IH]; [exact A |]. apply (proj2 (turns_named_spec label hm R)) in N. rewrite forallb_forall in B. specialize (B R N).
    rewrite forallb_forall in B. apply B. apply member_spec. exact IH. }
  rewrite (Q (rot m)) in C; [discriminate |]. apply K. exact (core_in m Im).
Qed.
End Data.

(** ** The tables *)
Definition fits_row (full : bool) (q : string * string) (p : hall * list seitz) : bool :=
  if Nat.eqb (leading_number (fst q)) 90 then misfit_b (fst q) (snd q) p else name_b (fst q) (snd q) p.
Definition complete_row (full : bool) (q : string * string) (p : hall * list seitz) : bool :=
  if negb full && inb (leading_number (fst q)) cut_names then incomplete_b 48 (fst q) (snd q) p else complete_b 48 (fst q) (snd q) p.
Lemma full_fits : forallb (fun x => fits_row true (fst x) (snd x)) (combine (combine full_number full_hm) full_groups) = true.
Proof. vm_cast_no_check (@eq_refl bool true). Qed.
Lemma full_complete : forallb (fun x => complete_row true (fst x) (snd x)) (combine (combine full_number full_hm) full_groups) = true.
Proof. vm_cast_no_check (@eq_refl bool true). Qed.
Lemma default_fits : forallb (fun x => fits_row false (fst x) (snd x)) (combine (combine default_number default_hm) default_groups) = true.
Proof. vm_cast_no_check (@eq_refl bool true). Qed.
Lemma default_complete : forallb (fun x => complete_row false (fst x) (snd x)) (combine (combine default_number default_hm) default_groups) = true.
Proof. vm_cast_no_check (@eq_refl bool true). Qed.
Lemma rows_exact (f : string * string -> hall * list seitz -> bool) labels hms halls groups :
  map row_group halls = map Some groups ->
  forallb (fun x => f (fst x) (snd x)) (combine (combine labels hms) groups) = true ->
  forall i label hm s, nth_error labels i = Some label -> nth_error hms i = Some hm -> nth_error halls i = Some s ->
  exists p, row_group s = Some p /\ f (label, hm) p = true.
Proof.
  intros E A i label hm s Hl Hm Hs. destruct (row_data _ _ E i s Hs) as (p & Hp & R). exists p. split; [exact R |].
  rewrite forallb_forall in A. apply (A ((label, hm), p)).
  assert (K : forall (X Y : Type) (a : list X) (b : list Y) i x y, nth_error a i = Some x -> nth_error b i = Some y -> nth_error (combine a b) i = Some (x, y)).
  { clear. intros X Y. induction a as [| u a IH]; intros [| v b] [| j] x y E F; try discriminate; cbn in *.
    - congruence.
    - exact (IH b j x y E F). }
  apply (nth_error_In _ i). exact (K _ _ _ _ i _ _ (K _ _ _ _ i _ _ Hl Hm) Hp).
Qed.
Lemma row_pair full i label s : get_space_group_number (table full) i = Some label -> get_hall_symbol (table full) i = Some s ->
  forall p, row_group s = Some p ->
  (forall m v w, In m (snd p) -> In v (translations (ls_char (h_lat (fst p)))) -> vcong12 w v0 -> text_group s (rot m, vadd (tra m) (vadd v w))) /\
  (forall R t, text_group s (R, t) -> exists m, In m (snd p) /\ rot m = R) /\
  (forall v, text_group s (I3, v) <-> centring (ls_char (h_lat (fst p))) v) /\
  (forall a b, text_group s a -> text_group s b -> text_group s (op_comp a b)).
Proof.
  intros Hl Hs [h core] R. destruct (row_group_spec _ _ _ R) as (g & E & G & <-). destruct (row_facts full i label s Hl Hs) as (h' & g' & E' & G' & T).
  assert (h' = h) by congruence. subst h'. cbn [fst snd]. pose proof (text_group_row _ _ R) as TG. cbn [fst] in TG.
  split; [| split; [| split]].
  - intros m v w Im Iv W. apply TG. destruct (C25_positions_sound _ _ _ G m Im) as [_ HG].
    apply (hall_group_coset h (rot m) (tra m)); [exact HG |]. exists v. split; [exact Iv |].
    destruct W as ((a & A) & (b & B) & (c & C)). cbn [v0 vx vy vz] in A, B, C. destruct (tra m), v, w. cbn in *.
    split; [| split]; [exists a | exists b | exists c]; cbn; lia.
  - intros Q t HG. apply TG in HG. exact (rotations_complete _ _ _ G _ HG).
  - intros v. rewrite TG. split; [apply T | apply hall_group_lat].
  - intros a b A B. apply TG in A. apply TG in B. apply TG. exact (gen_comp _ _ _ A B).
Qed.
(** ** C92 *)
(** the name of every row except number 90 describes the group of the row's Hall symbol: lattice
    letter, an element of every kind named along its direction, nothing along a direction marked
    1.  Number 90 is listed as P 42 1 2 (for P 4 21 2) in both tables, which does not fit. *)
Theorem C92_names_fit : forall full i label hm s,
  get_space_group_number (table full) i = Some label -> get_hm_full_notation (table full) i = Some hm -> get_hall_symbol (table full) i = Some s ->
  (name_fits label hm (text_group s) <-> leading_number label <> 90%nat).
Proof.
  intros full i label hm s Hl Hm Hs.
  assert (K : exists p, row_group s = Some p /\ fits_row full (label, hm) p = true).
  { destruct full; [exact (rows_exact _ _ _ _ _ full_groups_ok full_fits i label hm s Hl Hm Hs) |
                    exact (rows_exact _ _ _ _ _ default_groups_ok default_fits i label hm s Hl Hm Hs)]. }
  destruct K as ((h & core) & R & K). destruct (row_pair full i label s Hl Hs _ R) as (P1 & P2 & P3 & P4). cbn [fst snd] in *.
  unfold fits_row in K. cbn [fst snd] in K. destruct (Nat.eqb_spec (leading_number label) 90) as [N | N].
  - split; [| contradiction]. intros F. destruct (misfit_sound _ h core P1 label hm K F).
  - split; [intros _; exact N |]. intros _. exact (name_b_sound _ h core P1 P2 P3 label hm K).
Qed.
(** in the full table the elements named generate all rotation parts; in the default table the
    names that were cut at the [/] (and R 32) do not *)
Theorem C92_names_complete : forall full i label hm s,
  get_space_group_number (table full) i = Some label -> get_hm_full_notation (table full) i = Some hm -> get_hall_symbol (table full) i = Some s ->
  (name_complete label hm (text_group s) <-> ~ (full = false /\ In (leading_number label) cut_names)).
Proof.
  intros full i label hm s Hl Hm Hs.
  assert (K : exists p, row_group s = Some p /\ complete_row full (label, hm) p = true).
  { destruct full; [exact (rows_exact _ _ _ _ _ full_groups_ok full_complete i label hm s Hl Hm Hs) |
                    exact (rows_exact _ _ _ _ _ default_groups_ok default_complete i label hm s Hl Hm Hs)]. }
  destruct K as ((h & core) & R & K). destruct (row_pair full i label s Hl Hs _ R) as (P1 & P2 & P3 & P4). cbn [fst snd] in *.
  unfold complete_row in K. cbn [fst snd] in K. destruct (negb full && inb (leading_number label) cut_names) eqn:B.
  - apply andb_true_iff in B. destruct B as [B1 B2]. apply negb_true_iff in B1. apply inb_spec in B2.
    split; [| intros F; destruct F; auto]. intros F. destruct (incomplete_sound _ h core P1 P2 48 label hm K F).
  - split; [| intros _; exact (complete_sound _ h core P1 P2 P3 P4 48 label hm K)].
    intros _ (F & I). apply inb_spec in I. rewrite F, I in B. discriminate.
Qed.
(** both sides occur: F d -3 m:2 (number 227) fits, P 42 1 2 (number 90) does not; P 1 21/c 1 says
    everything about the rotations in the full table *)
Example C92_case :
  get_hm_full_notation (table true) 525 = Some "F d -3 m:2"%string /\ name_fits "227:2" "F d -3 m:2" (text_group "-F 4vw 2vw 3") /\
  get_hm_full_notation (table true) 366 = Some "P 42 1 2"%string /\ ~ name_fits "90" "P 42 1 2" (text_group "P 4ab 2ab") /\
  get_hm_full_notation (table true) 80 = Some "P 1 21/c 1"%string /\ name_complete "14:b1" "P 1 21/c 1" (text_group "-P 2ybc").
Proof.
  assert (A1 : get_space_group_number (table true) 525 = Some "227:2"%string) by (vm_compute; reflexivity).
  assert (A2 : get_hm_full_notation (table true) 525 = Some "F d -3 m:2"%string) by (vm_compute; reflexivity).
  assert (A3 : get_hall_symbol (table true) 525 = Some "-F 4vw 2vw 3"%string) by (vm_compute; reflexivity).
  assert (B1 : get_space_group_number (table true) 366 = Some "90"%string) by (vm_compute; reflexivity).
  assert (B2 : get_hm_full_notation (table true) 366 = Some "P 42 1 2"%string) by (vm_compute; reflexivity).
  assert (B3 : get_hall_symbol (table true) 366 = Some "P 4ab 2ab"%string) by (vm_compute; reflexivity).
  assert (C1 : get_space_group_number (table true) 80 = Some "14:b1"%string) by (vm_compute; reflexivity).
  assert (C2 : get_hm_full_notation (table true) 80 = Some "P 1 21/c 1"%string) by (vm_compute; reflexivity).
  assert (C3 : get_hall_symbol (table true) 80 = Some "-P 2ybc"%string) by (vm_compute; reflexivity).
  split; [exact A2 |]. split; [refine (proj2 (C92_names_fit true _ _ _ _ A1 A2 A3) _); vm_compute; discriminate |].
  split; [exact B2 |]. split; [intros F; exact (proj1 (C92_names_fit true _ _ _ _ B1 B2 B3) F eq_refl) |].
  split; [exact C2 |]. refine (proj2 (C92_names_complete true _ _ _ _ C1 C2 C3) _). intros [E _]. discriminate.
Qed.
