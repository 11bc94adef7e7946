(** * NormF64: the choice of representative with the [f64] comparison as written in the source.
    [Generate.minimal_step] compares integers; that this is the same is proved in [PropNorm] (C46). *)
From Coq Require Import Floats.SpecFloat.
From Verif Require Import Base Notations Parser Seitz F64 Jones Rotations Tables Generate.
Open Scope Z_scope.

(** nalgebra [norm_squared] of a [Vector3<f64>]: 0 plus the dot product a + b + c *)
Definition fnorm2 (x y z : f64) : f64 :=
  fadd (S754_zero false) (fadd (fadd (fmul x x) (fmul y y)) (fmul z z)).
(** [v.map(|v| v as f64).norm_squared()] (src/hall_symbols/mod.rs:113) *)
Definition vec_fnorm2 (v : vec3) : f64 := fnorm2 (f64_of_Z (vx v)) (f64_of_Z (vy v)) (f64_of_Z (vz v)).
(** mod.rs:112-121: the closure of [fold] *)
Definition minimal_step_f (curr next : vec3) : vec3 :=
  if SFltb (vec_fnorm2 next) (vec_fnorm2 curr) && Nat.leb (count_le0 next) (count_le0 curr) then next else curr.
(** mod.rs:103-122 [translation_minimal_repr] *)
Definition minimal_repr_f (lt : list vec3) (t : vec3) : vec3 :=
  fold_left minimal_step_f (map (fun tr => vmap positive_mod (vadd t tr)) lt) (vmap positive_mod t).
