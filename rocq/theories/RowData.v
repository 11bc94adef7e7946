(** * RowData: the groups of the table rows, written out (proof support): each row is parsed and
    generated once, here, and looked up everywhere else. *)
From Verif Require Import Base Notations Parser Seitz F64 Jones Rotations Tables Generate Positions Lookup.
Open Scope Z_scope.
Local Notation length := List.length.

(** parsing and generating one row *)
Definition row_group (s : string) : option (hall * list seitz) :=
  match try_from_str s with
  | Done (Some h) =>
      match general_positions 10 h with Done g => Some (h, gp_core g) | _ => None end
  | _ => None
  end.
Definition the_rows (halls : list string) : list (hall * list seitz) :=
  flat_map (fun s => match row_group s with Some p => [p] | None => [] end) halls.
Definition full_groups : list (hall * list seitz) := Eval vm_compute in the_rows full_hall.
Lemma full_groups_ok : map row_group full_hall = map Some full_groups.
Proof. vm_cast_no_check (@eq_refl (list (option (hall * list seitz))) (map Some full_groups)). Qed.
(** the rows of the default table: most of them are rows of the full table too *)
Fixpoint position_in (s : string) (l : list string) (n : nat) : option nat :=
  match l with [] => None | x :: r => if String.eqb s x then Some n else position_in s r (S n) end.
Definition default_links : list (option nat) := Eval vm_compute in map (fun s => position_in s full_hall 0) default_hall.
Definition only_default : list string := Eval vm_compute in
  filter (fun s => match position_in s full_hall 0 with None => true | Some _ => false end) default_hall.
Definition only_groups : list (hall * list seitz) := Eval vm_compute in the_rows only_default.
Lemma only_groups_ok : map row_group only_default = map Some only_groups.
Proof. vm_cast_no_check (@eq_refl (list (option (hall * list seitz))) (map Some only_groups)). Qed.
Section Links.
Variables (fh : list string) (fg : list (hall * list seitz)).
Fixpoint linked (l : list (option nat)) (oh : list string) : list string :=
  match l with
  | [] => []
  | Some j :: r => match nth_error fh j with Some s => s :: linked r oh | None => [] end
  | None :: r => match oh with s :: oh' => s :: linked r oh' | [] => [] end
  end.
Fixpoint linked_groups (l : list (option nat)) (og : list (hall * list seitz)) : list (hall * list seitz) :=
  match l with
  | [] => []
  | Some j :: r => match nth_error fg j with Some p => p :: linked_groups r og | None => [] end
  | None :: r => match og with p :: og' => p :: linked_groups r og' | [] => [] end
  end.
Lemma linked_ok : map row_group fh = map Some fg -> forall l oh og, map row_group oh = map Some og ->
  map row_group (linked l oh) = map Some (linked_groups l og).
Proof.
  intros F. induction l as [| [j |] l IH]; intros oh' og' E; [reflexivity | |].
  - cbn [linked linked_groups]. pose proof (f_equal (fun x => nth_error x j) F) as N. cbv beta in N. rewrite !nth_error_map in N.
    destruct (nth_error fh j) as [s |], (nth_error fg j) as [p |]; cbn [option_map] in N; try discriminate; [| reflexivity].
    cbn [map]. rewrite (IH _ _ E). congruence.
  - cbn [linked linked_groups]. destruct oh' as [| s oh'], og' as [| p og']; try discriminate; [reflexivity |].
    cbn [map] in E |- *. injection E as E1 E2. rewrite E1, (IH _ _ E2). reflexivity.
Qed.
End Links.
Definition default_groups : list (hall * list seitz) := Eval vm_compute in linked_groups full_groups default_links only_groups.
Lemma default_linked : default_hall = linked full_hall default_links only_default.
Proof. vm_cast_no_check (@eq_refl (list string) default_hall). Qed.
Lemma default_groups_linked : default_groups = linked_groups full_groups default_links only_groups.
Proof. vm_cast_no_check (@eq_refl (list (hall * list seitz)) default_groups). Qed.
Lemma default_groups_ok : map row_group default_hall = map Some default_groups.
Proof.
  rewrite default_linked, default_groups_linked.
  exact (linked_ok full_hall full_groups full_groups_ok default_links only_default only_groups only_groups_ok).
Qed.

(** what holds of the rows of the full table and of the other rows of the default table holds of the default table *)
Lemma linked_from (f : string -> bool) fh l : forall oh, forallb f fh = true -> forallb f oh = true -> forallb f (linked fh l oh) = true.
Proof.
  intros oh F. revert oh. induction l as [| [j |] l IH]; intros oh O; [reflexivity | |]; cbn [linked].
  - destruct (nth_error fh j) as [s |] eqn:E; [| reflexivity]. cbn [forallb].
    rewrite (IH oh O), andb_true_r. rewrite forallb_forall in F. apply F, (nth_error_In _ j), E.
  - destruct oh as [| s oh]; [reflexivity |]. cbn [forallb] in O |- *. apply andb_true_iff in O. destruct O as [O1 O2].
    rewrite O1. exact (IH oh O2).
Qed.
Lemma default_from_full (f : string -> bool) : forallb f full_hall = true -> forallb f only_default = true -> forallb f default_hall = true.
Proof. intros F O. rewrite default_linked. exact (linked_from f full_hall default_links only_default F O). Qed.

(** ** Checking rows on the written-out groups *)
Lemma rows_by_data (f : string -> hall * list seitz -> bool) (halls : list string) (groups : list (hall * list seitz)) :
  map row_group halls = map Some groups -> forall labels,
  forallb (fun p => f (fst p) (snd p)) (combine labels groups) = true ->
  forallb (fun p => match row_group (snd p) with Some q => f (fst p) q | None => false end) (combine labels halls) = true.
Proof.
  revert groups. induction halls as [| s halls IH]; intros [| g groups] E labels H; try discriminate.
  - destruct labels; reflexivity.
  - destruct labels as [| x labels]; [reflexivity |]. cbn [map] in E. injection E as E1 E2.
    cbn [combine forallb fst snd] in H |- *. rewrite E1. apply andb_true_iff in H. destruct H as [H1 H2]. rewrite H1. exact (IH _ E2 _ H2).
Qed.
Lemma halls_by_data (f : hall * list seitz -> bool) (halls : list string) (groups : list (hall * list seitz)) :
  map row_group halls = map Some groups -> forallb f groups = true ->
  forallb (fun s => match row_group s with Some q => f q | None => false end) halls = true.
Proof.
  revert groups. induction halls as [| s halls IH]; intros [| g groups] E H; try discriminate; [reflexivity |].
  cbn [map] in E. injection E as E1 E2. cbn [forallb] in H |- *. rewrite E1. apply andb_true_iff in H. destruct H as [H1 H2].
  rewrite H1. exact (IH _ E2 H2).
Qed.
Lemma data_row halls groups : map row_group halls = map Some groups -> forall i p, nth_error groups i = Some p ->
  exists s, nth_error halls i = Some s /\ row_group s = Some p.
Proof.
  intros E i p H. pose proof (f_equal (fun x => nth_error x i) E) as N. cbv beta in N. rewrite !nth_error_map, H in N.
  destruct (nth_error halls i) as [s |]; cbn [option_map] in N; [| discriminate]. exists s. split; [reflexivity | congruence].
Qed.
Lemma row_data halls groups : map row_group halls = map Some groups -> forall i s, nth_error halls i = Some s ->
  exists p, nth_error groups i = Some p /\ row_group s = Some p.
Proof.
  intros E i s H. pose proof (f_equal (fun x => nth_error x i) E) as N. cbv beta in N. rewrite !nth_error_map, H in N.
  destruct (nth_error groups i) as [p |]; cbn [option_map] in N; [| discriminate]. exists p. split; [reflexivity | congruence].
Qed.
