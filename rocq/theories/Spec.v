(** * Spec: the independent vocabulary in which the properties are stated.

    Nothing here refers to the model's algorithms; only the plain data types of the model
    ([vec3], [mat3], [seitz] as a block record) are used. *)
From Coq Require Import QArith.
From Verif Require Import Base Seitz.
Open Scope Z_scope.

(** ** Congruence modulo the cell (translations are integers, in twelfths of a cell) *)
Definition cong12 (a b : Z) : Prop := exists k, a - b = 12 * k.
Definition vcong12 (a b : vec3) : Prop :=
  cong12 (vx a) (vx b) /\ cong12 (vy a) (vy b) /\ cong12 (vz a) (vz b).
Definition vbetween (lo hi : Z) (v : vec3) : Prop :=
  (lo <= vx v < hi) /\ (lo <= vy v < hi) /\ (lo <= vz v < hi).

(** a proper Seitz matrix: last row 0 0 0 1 *)
Definition is_affine (m : seitz) : Prop := bot m = V3 0 0 0 /\ cor m = 1.

(** two operations are the same up to whole-cell translations *)
Definition same_op (a b : seitz) : Prop := rot a = rot b /\ vcong12 (tra a) (tra b).

(** ** Action on points with rational coordinates *)
Record qvec := QV { qx : Q; qy : Q; qz : Q }.
Definition qdot (a b c : Z) (p : qvec) : Q :=
  (inject_Z a * qx p + inject_Z b * qy p + inject_Z c * qz p)%Q.
(** x |-> R x + t/12 *)
Definition act (m : seitz) (p : qvec) : qvec :=
  QV (qdot (m11 (rot m)) (m12 (rot m)) (m13 (rot m)) p + inject_Z (vx (tra m)) / 12)
     (qdot (m21 (rot m)) (m22 (rot m)) (m23 (rot m)) p + inject_Z (vy (tra m)) / 12)
     (qdot (m31 (rot m)) (m32 (rot m)) (m33 (rot m)) p + inject_Z (vz (tra m)) / 12).
(** the two points are equivalent under whole-cell translations *)
Definition cells_apart (p q : qvec) : Prop :=
  exists i j k : Z,
    (qx p - qx q == inject_Z i /\ qy p - qy q == inject_Z j /\ qz p - qz q == inject_Z k)%Q.

(** ** Exact affine composition and the group generated by a set of operations *)
Definition op := (mat3 * vec3)%type.
Definition op_of (m : seitz) : op := (rot m, tra m).
Definition op_id : op := (I3, V3 0 0 0).
(** (R1,t1) after (R2,t2): x |-> R1 (R2 x + t2) + t1 *)
Definition op_comp (a b : op) : op :=
  (mmul (fst a) (fst b), vadd (mvmul (fst a) (snd b)) (snd a)).
Definition op_same (a b : op) : Prop := fst a = fst b /\ vcong12 (snd a) (snd b).
(** the smallest set containing the generators, closed under composition, inverses and
    whole-cell translations *)
Inductive generated (gens : op -> Prop) : op -> Prop :=
| gen_one : generated gens op_id
| gen_base g : gens g -> generated gens g
| gen_comp a b : generated gens a -> generated gens b -> generated gens (op_comp a b)
| gen_inv a b : generated gens a -> op_comp a b = op_id -> generated gens b
| gen_cell a b : generated gens a -> op_same a b -> generated gens b.

(** powers, n-fold composition *)
Fixpoint mpow (M : mat3) (n : nat) : mat3 :=
  match n with O => I3 | S k => mmul M (mpow M k) end.
Fixpoint op_pow (a : op) (n : nat) : op :=
  match n with O => op_id | S k => op_comp a (op_pow a k) end.
(** [n] is the order of [M]: the least positive exponent giving the identity *)
Definition has_order (M : mat3) (n : nat) : Prop :=
  (0 < n)%nat /\ mpow M n = I3 /\ forall k, (0 < k < n)%nat -> mpow M k <> I3.
Definition finite_order (M : mat3) : Prop := exists n, (0 < n)%nat /\ mpow M n = I3.
