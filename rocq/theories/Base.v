(** * Base: outcomes, integer vectors and 3x3 matrices.

    Model of the nalgebra types used by the crate: [Vector3<i32>] and [Matrix3<i32>].
    [i32] is modelled by [Z]; overflow is treated separately (see [Machine.v]). *)
From Coq Require Export ZArith List Bool Ascii String Lia.
Export ListNotations.
Open Scope Z_scope.

(** Result of running a Rust function that may panic ([Panic], with the reason)
    or loop ([OutOfFuel]: the step budget given to the model was not enough). *)
Inductive outcome (A : Type) : Type :=
| Done (a : A)
| Panic (why : string)
| OutOfFuel.
Arguments Done {A} a.
Arguments Panic {A} why.
Arguments OutOfFuel {A}.

(** Rust's sequencing: the next step runs only when the previous one returned (a panic unwinds, a loop never continues) *)
Definition obind {A B} (x : outcome A) (f : A -> outcome B) : outcome B :=
  match x with Done a => f a | Panic w => Panic w | OutOfFuel => OutOfFuel end.

(** src/hall_symbols/mod.rs:31 [SEITZ_TRANSLATE_BASE_NUMBER] *)
Definition STBN : Z := 12.

(** nalgebra [Vector3<i32>] *)
Record vec3 := V3 { vx : Z; vy : Z; vz : Z }.

(** nalgebra [Matrix3<i32>], fields in row-major order: [mRC] is row R, column C *)
Record mat3 := M3 { m11 : Z; m12 : Z; m13 : Z;
                    m21 : Z; m22 : Z; m23 : Z;
                    m31 : Z; m32 : Z; m33 : Z }.

(** [Vector3::zeros()] (used at seitz_mat_impl.rs:82) *)
Definition v0 : vec3 := V3 0 0 0.
(** nalgebra [Vector3::map] *)
Definition vmap (f : Z -> Z) (v : vec3) : vec3 := V3 (f (vx v)) (f (vy v)) (f (vz v)).
(** nalgebra [Vector3 + Vector3] (used at src/hall_symbols/mod.rs:109, 145) *)
Definition vadd (a b : vec3) : vec3 := V3 (vx a + vx b) (vy a + vy b) (vz a + vz b).
(** nalgebra [Vector3 - Vector3] (used at seitz_mat_impl.rs:27) *)
Definition vsub (a b : vec3) : vec3 := V3 (vx a - vx b) (vy a - vy b) (vz a - vz b).
(** componentwise [neg] (used at origin_shift/mod.rs:48) *)
Definition vopp (a : vec3) : vec3 := V3 (- vx a) (- vy a) (- vz a).
(** part of the nalgebra [Matrix4] product, see [Seitz.mat4_mul] *)
Definition vscale (k : Z) (a : vec3) : vec3 := V3 (k * vx a) (k * vy a) (k * vz a).
(** part of the nalgebra [Matrix4] product, see [Seitz.mat4_mul] *)
Definition vdot (a b : vec3) : Z := vx a * vx b + vy a * vy b + vz a * vz b.
(** [vector.iter().all(..)] (used at seitz_mat_impl.rs:28-29 and src/hall_symbols/mod.rs:149-150) *)
Definition vforall (f : Z -> bool) (v : vec3) : bool := f (vx v) && f (vy v) && f (vz v).
(** [vector.iter()] (used at src/hall_symbols/mod.rs:114-115, seitz_mat_impl.rs:291) *)
Definition vlist (v : vec3) : list Z := [vx v; vy v; vz v].

(** [==] on [Vector3<i32>]: every component *)
Definition veqb (a b : vec3) : bool :=
  (vx a =? vx b) && (vy a =? vy b) && (vz a =? vz b).

(** [Matrix3::identity()] *)
Definition I3 : mat3 := M3 1 0 0 0 1 0 0 0 1.
(** nalgebra [Matrix3::map] *)
Definition mmap (f : Z -> Z) (a : mat3) : mat3 :=
  M3 (f (m11 a)) (f (m12 a)) (f (m13 a))
     (f (m21 a)) (f (m22 a)) (f (m23 a))
     (f (m31 a)) (f (m32 a)) (f (m33 a)).
(** [map(|v| -v)] (used at seitz_mat_impl.rs:59, 66) *)
Definition mopp (a : mat3) : mat3 := mmap Z.opp a.
(** nalgebra [Matrix3 + Matrix3] *)
Definition madd (a b : mat3) : mat3 :=
  M3 (m11 a + m11 b) (m12 a + m12 b) (m13 a + m13 b)
     (m21 a + m21 b) (m22 a + m22 b) (m23 a + m23 b)
     (m31 a + m31 b) (m32 a + m32 b) (m33 a + m33 b).
(** nalgebra [Matrix3 - Matrix3] (used at seitz_mat_impl.rs:71) *)
Definition msub (a b : mat3) : mat3 :=
  M3 (m11 a - m11 b) (m12 a - m12 b) (m13 a - m13 b)
     (m21 a - m21 b) (m22 a - m22 b) (m23 a - m23 b)
     (m31 a - m31 b) (m32 a - m32 b) (m33 a - m33 b).
(** [map(|v| v * k)] *)
Definition mscale (k : Z) (a : mat3) : mat3 := mmap (Z.mul k) a.

(** nalgebra [Matrix3 * Matrix3] *)
Definition mmul (a b : mat3) : mat3 :=
  M3 (m11 a * m11 b + m12 a * m21 b + m13 a * m31 b)
     (m11 a * m12 b + m12 a * m22 b + m13 a * m32 b)
     (m11 a * m13 b + m12 a * m23 b + m13 a * m33 b)
     (m21 a * m11 b + m22 a * m21 b + m23 a * m31 b)
     (m21 a * m12 b + m22 a * m22 b + m23 a * m32 b)
     (m21 a * m13 b + m22 a * m23 b + m23 a * m33 b)
     (m31 a * m11 b + m32 a * m21 b + m33 a * m31 b)
     (m31 a * m12 b + m32 a * m22 b + m33 a * m32 b)
     (m31 a * m13 b + m32 a * m23 b + m33 a * m33 b).

(** nalgebra [Matrix3 * Vector3] (used at seitz_mat_impl.rs:82) *)
Definition mvmul (a : mat3) (v : vec3) : vec3 :=
  V3 (m11 a * vx v + m12 a * vy v + m13 a * vz v)
     (m21 a * vx v + m22 a * vy v + m23 a * vz v)
     (m31 a * vx v + m32 a * vy v + m33 a * vz v).

(** row vector times matrix: [v^T a] *)
Definition vmmul (v : vec3) (a : mat3) : vec3 :=
  V3 (vx v * m11 a + vy v * m21 a + vz v * m31 a)
     (vx v * m12 a + vy v * m22 a + vz v * m32 a)
     (vx v * m13 a + vy v * m23 a + vz v * m33 a).

(** outer product [v w^T] *)
Definition vouter (v w : vec3) : mat3 :=
  M3 (vx v * vx w) (vx v * vy w) (vx v * vz w)
     (vy v * vx w) (vy v * vy w) (vy v * vz w)
     (vz v * vx w) (vz v * vy w) (vz v * vz w).

(** nalgebra [Matrix3::trace] *)
Definition mtrace (a : mat3) : Z := m11 a + m22 a + m33 a.
(** the integer determinant; the code computes it in [f64] (seitz_mat_impl.rs:141-143, see [F64.sz_det]) *)
Definition mdet (a : mat3) : Z :=
  m11 a * (m22 a * m33 a - m32 a * m23 a)
  - m12 a * (m21 a * m33 a - m31 a * m23 a)
  + m13 a * (m21 a * m32 a - m31 a * m22 a).

(** [==] on [Matrix3<i32>]: every entry *)
Definition meqb (a b : mat3) : bool :=
  (m11 a =? m11 b) && (m12 a =? m12 b) && (m13 a =? m13 b) &&
  (m21 a =? m21 b) && (m22 a =? m22 b) && (m23 a =? m23 b) &&
  (m31 a =? m31 b) && (m32 a =? m32 b) && (m33 a =? m33 b).

(** Rust's [list.iter().position(p)] *)
Fixpoint position {A} (p : A -> bool) (l : list A) : option nat :=
  match l with
  | [] => None
  | x :: r => if p x then Some O else option_map S (position p r)
  end.

(** [collect::<Vec<_>>] of fallible items: the first failure wins *)
Fixpoint omap {A B} (f : A -> outcome B) (l : list A) : outcome (list B) :=
  match l with
  | [] => Done []
  | x :: r => obind (f x) (fun y => obind (omap f r) (fun ys => Done (y :: ys)))
  end.
