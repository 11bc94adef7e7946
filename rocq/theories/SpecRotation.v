(** * SpecRotation: vocabulary for the rotation part of an operation (C16-C19). *)
From Verif Require Import Base Notations Seitz Spec.
Open Scope Z_scope.

(** every entry is at most [b] in size *)
Definition entries_within (b : Z) (M : mat3) : Prop :=
  Z.abs (m11 M) <= b /\ Z.abs (m12 M) <= b /\ Z.abs (m13 M) <= b /\
  Z.abs (m21 M) <= b /\ Z.abs (m22 M) <= b /\ Z.abs (m23 M) <= b /\
  Z.abs (m31 M) <= b /\ Z.abs (m32 M) <= b /\ Z.abs (m33 M) <= b.

(** determinant, expanded along the first column *)
Definition det_spec (M : mat3) : Z :=
  m11 M * (m22 M * m33 M - m23 M * m32 M)
  - m21 M * (m12 M * m33 M - m13 M * m32 M)
  + m31 M * (m12 M * m23 M - m13 M * m22 M).

(** fits a signed 32-bit integer *)
Definition fits_i32 (n : Z) : Prop := - 2 ^ 31 <= n < 2 ^ 31.
(** the nearest signed 32-bit integer *)
Definition saturated_i32 (n k : Z) : Prop :=
  fits_i32 k /\ (fits_i32 n -> k = n) /\ (2 ^ 31 <= n -> k = 2 ^ 31 - 1) /\ (n < - 2 ^ 31 -> k = - 2 ^ 31).

(** the proper part of a matrix of determinant +1 or -1 *)
Definition proper_of (M : mat3) : mat3 := if det_spec M =? -1 then mopp M else M.

(** what the names of the ten rotation types mean: order of the proper part, and determinant *)
Definition type_meaning (t : rot_type) : nat * Z :=
  match t with
  | RE => (1%nat, 1) | RN2 => (2%nat, 1) | RN3 => (3%nat, 1) | RN4 => (4%nat, 1) | RN6 => (6%nat, 1)
  | RI => (1%nat, -1) | RM => (2%nat, -1) | RM3 => (3%nat, -1) | RM4 => (4%nat, -1) | RM6 => (6%nat, -1)
  end.

(** [v] is fixed by [M] up to the handedness of [M] *)
Definition axis_of (M : mat3) (v : vec3) : Prop :=
  v <> V3 0 0 0 /\ mvmul M v = V3 (det_spec M * vx v) (det_spec M * vy v) (det_spec M * vz v).
Definition unit_entries (v : vec3) : Prop := vbetween (-1) 2 v.
(** the last non-zero component is positive *)
Definition points_up (v : vec3) : Prop :=
  0 < vz v \/ (vz v = 0 /\ 0 < vy v) \/ (vz v = 0 /\ vy v = 0 /\ 0 < vx v).

(** the space groups with a two-fold axis or mirror normal along 210 in hexagonal axes *)
Definition has_210_axis (n : nat) : Prop :=
  In n [149; 151; 153; 157; 159; 162; 163]%nat \/ (177 <= n <= 194)%nat.
