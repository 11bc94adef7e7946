(** * SpecOrbit: the sites of a point in the crystal (C64). *)
From Coq Require Import QArith.
From Verif Require Import Base Seitz Generate Positions Spec.
Open Scope Z_scope.

(** the rational number is an integer *)
Definition whole (x : Q) : bool := Qnum x mod Zpos (Qden x) =? 0.
(** the points differ by whole cells *)
Definition same_site (p q : qvec) : bool :=
  whole (qx p - qx q) && whole (qy p - qy q) && whole (qz p - qz q).
(** all operations of all sets, in listing order *)
Definition all_operations (g : gpos) : list seitz := List.concat (derive_full_sets g).
(** how many of the listed operations take [p] to the site of [q] *)
Definition copies (g : gpos) (p q : qvec) : nat :=
  List.length (filter (fun m => same_site (act m p) q) (all_operations g)).
(** [sites] are the different sites to which the listed operations take [p] *)
Definition orbit (g : gpos) (p : qvec) (sites : list qvec) : Prop :=
  (forall i j a b, nth_error sites i = Some a -> nth_error sites j = Some b -> same_site a b = true -> i = j) /\
  (forall m, In m (all_operations g) -> exists q, In q sites /\ same_site (act m p) q = true) /\
  (forall q, In q sites -> exists m, In m (all_operations g) /\ act m p = q).
