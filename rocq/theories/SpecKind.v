(** * SpecKind: the space-group number of a notation (C87, C88). *)
From Verif Require Import Base Parser Tables Lookup Spec SpecHall SpecTables SpecType PropTableGroups.
Open Scope Z_scope.

(** the notation describes a group of the type of the default row numbered [n] *)
Definition of_type (h : hall) (n : nat) : Prop :=
  exists j label s, get_space_group_number default_table j = Some label /\ get_hall_symbol default_table j = Some s /\
    leading_number label = n /\ same_type (hall_group h) (text_group s).
(** the number of the mirror image *)
Fixpoint partner_in (l : list (nat * nat)) (n : nat) : nat :=
  match l with
  | [] => n
  | (a, b) :: r => if Nat.eqb n a then b else if Nat.eqb n b then a else partner_in r n
  end.
Definition mirror_number (n : nat) : nat := partner_in mirror_pairs n.
(** some point is kept by one operation of every rotation part *)
Definition has_full_site (h : hall) : Prop :=
  exists p, forall R t, hall_group h (R, t) -> exists t', hall_group h (R, t') /\ qsame (move (R, t') p) p.
(** no point is kept by an operation with a rotation part other than the identity *)
Definition fixes_no_point (h : hall) : Prop :=
  forall p R t, hall_group h (R, t) -> qsame (move (R, t) p) p -> R = I3.
