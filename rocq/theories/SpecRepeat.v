(** * SpecRepeat: vocabulary for the rule on repeated rotations (C60). *)
From Verif Require Import Base Notations Seitz Generate Spec SpecHall.
Open Scope Z_scope.

(** some coordinate of the translation is a whole number of cells *)
Definition touches_axis (t : vec3) : Prop :=
  cong12 (vx t) 0 \/ cong12 (vy t) 0 \/ cong12 (vz t) 0.
(** no centred copy of the translation has a whole coordinate *)
Definition fully_fractional (l : lattice) (t : vec3) : Prop :=
  forall u, In u (translations l) -> ~ touches_axis (vadd t u).
(** the operation is in the list, up to the centring translations *)
Definition listed_up_to_centring (l : lattice) (ops : list seitz) (o : op) : Prop :=
  exists m, In m ops /\ rot m = fst o /\ centring l (vsub (tra m) (snd o)).
