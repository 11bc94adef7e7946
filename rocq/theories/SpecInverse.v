(** * SpecInverse: vocabulary for C16. *)
From Verif Require Import Base Notations Seitz.
Open Scope Z_scope.

(** [i] is the inverse of [m], as 4x4 integer matrices, without any reduction *)
Definition inverts (m i : seitz) : Prop :=
  mat4_mul m i = sz_identity /\ mat4_mul i m = sz_identity.

(** one entry +1 or -1 in every row and column, zeros elsewhere *)
Definition signed_row (a b c : Z) : Prop :=
  -1 <= a <= 1 /\ -1 <= b <= 1 /\ -1 <= c <= 1 /\ Z.abs a + Z.abs b + Z.abs c = 1.
Definition signed_permutation (R : mat3) : Prop :=
  signed_row (m11 R) (m12 R) (m13 R) /\ signed_row (m21 R) (m22 R) (m23 R) /\ signed_row (m31 R) (m32 R) (m33 R) /\
  signed_row (m11 R) (m21 R) (m31 R) /\ signed_row (m12 R) (m22 R) (m32 R) /\ signed_row (m13 R) (m23 R) (m33 R).

(** component by component within [d] *)
Definition vnear (d : Z) (a b : vec3) : Prop :=
  Z.abs (vx a - vx b) <= d /\ Z.abs (vy a - vy b) <= d /\ Z.abs (vz a - vz b) <= d.

(** twelve pairs of twelfths (in either order) whose difference, computed in binary64 from the
    quotients by 12 and multiplied by 12 again, is not the integer difference but just below it *)
Definition rounding_pairs : list (Z * Z) :=
  [(1, 8); (3, 4); (4, 11); (5, 6); (5, 8); (5, 11); (6, 8); (7, 8); (7, 9); (7, 11); (9, 11); (10, 11)].
Definition rounding_pair (a b : Z) : Prop := In (a, b) rounding_pairs \/ In (b, a) rounding_pairs.
