(** * SpecReflection: phases of the images of a point, reflection conditions (C84). *)
From Coq Require Import QArith.
From Verif Require Import Base Notations Seitz Generate Positions Spec SpecOrbit.
Open Scope Z_scope.

(** the phase of the reflection with indices [h] at the point [p], in whole turns: h x + k y + l z *)
Definition phase (h : vec3) (p : qvec) : Q := qdot (vx h) (vy h) (vz h) p.
(** how many of the images of [p] under the listed operations scatter the reflection [h] with the
    phase [x] (up to whole turns) *)
Definition scattered (g : gpos) (h : vec3) (p : qvec) (x : Q) : nat :=
  List.length (filter (fun m => whole (phase h (act m p) - x)) (all_operations g)).
(** the rotation part of [m] does not change the reflection: (h k l) R = (h k l) *)
Definition keeps_reflection (h : vec3) (m : seitz) : Prop :=
  vx h * m11 (rot m) + vy h * m21 (rot m) + vz h * m31 (rot m) = vx h /\
  vx h * m12 (rot m) + vy h * m22 (rot m) + vz h * m32 (rot m) = vy h /\
  vx h * m13 (rot m) + vy h * m23 (rot m) + vz h * m33 (rot m) = vz h.
(** the scalar product of the indices and a translation, in twelfths of a turn *)
Definition along (h t : vec3) : Z := vx h * vx t + vy h * vy t + vz h * vz t.
(** some listed operation keeps the reflection but moves its phase by a broken number of turns *)
Definition forbidden (g : gpos) (h : vec3) : Prop :=
  exists m, In m (all_operations g) /\ keeps_reflection h m /\ ~ (12 | along h (tra m)).
(** the textbook conditions of the centred lattices (R: obverse setting) *)
Definition lattice_forbids (l : lattice) (h : vec3) : Prop :=
  let odd a := (a mod 2 = 1) in
  match l with
  | LP => False
  | LA => odd (vy h + vz h)
  | LB => odd (vx h + vz h)
  | LC => odd (vx h + vy h)
  | LI => odd (vx h + vy h + vz h)
  | LF => odd (vx h + vy h) \/ odd (vx h + vz h) \/ odd (vy h + vz h)
  | LR => (- vx h + vy h + vz h) mod 3 <> 0
  end.
