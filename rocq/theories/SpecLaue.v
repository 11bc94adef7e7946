(** * SpecLaue: equivalent reflections, Laue classes (C97). *)
From Coq Require Import QArith.
From Verif Require Import Base Notations Seitz Generate Positions Spec SpecTables SpecReflection.
Open Scope Z_scope.

(** the indices (h k l) R *)
Definition carried (h : vec3) (R : mat3) : vec3 :=
  V3 (vx h * m11 R + vy h * m21 R + vz h * m31 R) (vx h * m12 R + vy h * m22 R + vz h * m32 R) (vx h * m13 R + vy h * m23 R + vz h * m33 R).
(** [rs] lists, once each, the rotation parts of the positions and their opposites *)
Definition laue_rotations (g : gpos) (rs : list mat3) : Prop :=
  NoDup rs /\ forall R, In R rs <-> exists m, In m (gp_core g) /\ (rot m = R \/ rot m = mopp R).
(** the reflections equivalent to [h], once each *)
Definition equivalents (rs : list mat3) (h : vec3) (es : list vec3) : Prop :=
  NoDup es /\ forall e, In e es <-> exists R, In R rs /\ e = carried h R.
(** the rotations that keep the reflection *)
Definition keepers (rs : list mat3) (h : vec3) : list mat3 := filter (fun R => veqb (carried h R) h) rs.
(** the 11 crystal classes with an inversion: the Laue classes *)
Definition laue_classes : list (nat * census) := filter (fun c => negb (Nat.eqb (nth 4 (snd c) 0%nat) 0)) crystal_classes.
(** the Laue class of space-group number [n]: the crystal classes are numbered such that it is the next one with an inversion *)
Definition laue_of_number (n : nat) : option census := class_of_number_in laue_classes n.
