(** * F64: the operations computed in [f64]: determinant, rotation type, eigenvector, inverse.
    [f64] is IEEE binary64, round to nearest even, from Coq's [SpecFloat] (pure Gallina).
    Source: src/hall_symbols/matrix_symbol/matrices/seitz_mat_impl.rs. *)
From Coq Require Import SpecFloat.
From Verif Require Import Base Notations Seitz.

(** IEEE binary64 precision *)
Definition prec64 : Z := 53.
(** IEEE binary64 exponent bound *)
Definition emax64 : Z := 1024.
(** Rust [f64] *)
Definition f64 := spec_float.
(** [f64 + f64] *)
Definition fadd : f64 -> f64 -> f64 := SFadd prec64 emax64.
(** [f64 - f64] *)
Definition fsub : f64 -> f64 -> f64 := SFsub prec64 emax64.
(** [f64 * f64] *)
Definition fmul : f64 -> f64 -> f64 := SFmul prec64 emax64.
(** [f64 / f64] *)
Definition fdiv : f64 -> f64 -> f64 := SFdiv prec64 emax64.
(** [- f64] *)
Definition fneg : f64 -> f64 := SFopp.
(** [v as f64] for integers *)
Definition f64_of_Z (z : Z) : f64 := binary_normalize prec64 emax64 z 0 false.
(** [v as i32] for floats: truncation towards zero, saturating; NaN gives 0 *)
Definition Z_of_f64 (f : f64) : Z :=
  match f with
  | S754_zero _ => 0
  | S754_nan => 0
  | S754_infinity true => -2147483648
  | S754_infinity false => 2147483647
  | S754_finite s m e =>
      let a := if 0 <=? e then Z.pos m * 2 ^ e else Z.pos m / 2 ^ (- e) in
      let v := if s then - a else a in
      Z.max (-2147483648) (Z.min 2147483647 v)
  end.
(** nalgebra [determinant.is_zero()] (both zeros) *)
Definition fis_zero (f : f64) : bool := match f with S754_zero _ => true | _ => false end.

(** nalgebra [determinant] of a 3x3 matrix *)
Definition fdet3 (a11 a12 a13 a21 a22 a23 a31 a32 a33 : f64) : f64 :=
  let minor_m12_m23 := fsub (fmul a22 a33) (fmul a32 a23) in
  let minor_m11_m23 := fsub (fmul a21 a33) (fmul a31 a23) in
  let minor_m11_m22 := fsub (fmul a21 a32) (fmul a31 a22) in
  fadd (fsub (fmul a11 minor_m12_m23) (fmul a12 minor_m11_m23)) (fmul a13 minor_m11_m22).

(** seitz_mat_impl.rs:141-143 [det]; [to_f64_mat] (177-189) only divides the translation
    column, which [fixed_resize::<3,3>] drops *)
Definition sz_det (m : seitz) : Z :=
  let f := f64_of_Z in
  Z_of_f64 (fdet3 (f (m11 (rot m))) (f (m12 (rot m))) (f (m13 (rot m)))
                  (f (m21 (rot m))) (f (m22 (rot m))) (f (m23 (rot m)))
                  (f (m31 (rot m))) (f (m32 (rot m))) (f (m33 (rot m)))).

(** seitz_mat_impl.rs:110-126 [rotation_type]; [None] is [Err(NotRotationMatrix)] *)
Definition rotation_type_of (det trace : Z) : option rot_type :=
  if det =? -1 then
    if trace =? -3 then Some RI else if trace =? -2 then Some RM6
    else if trace =? -1 then Some RM4 else if trace =? 0 then Some RM3
    else if trace =? 1 then Some RM else None
  else if det =? 1 then
    if trace =? -1 then Some RN2 else if trace =? 0 then Some RN3
    else if trace =? 1 then Some RN4 else if trace =? 2 then Some RN6
    else if trace =? 3 then Some RE else None
  else None.
(** seitz_mat_impl.rs:110-126 [rotation_type] *)
Definition rotation_type (m : seitz) : option rot_type := rotation_type_of (sz_det m) (sz_trace m).

(** seitz_mat_impl.rs:36-52 [equiv_num]; [None] is the [expect] panic *)
Definition rtype_equiv_num (t : rot_type) : Z :=
  match t with
  | RE => 1 | RN2 => 2 | RN3 => 3 | RN4 => 4 | RN6 => 6
  | RI => 1 | RM => 2 | RM3 => 3 | RM4 => 4 | RM6 => 6
  end.
(** seitz_mat_impl.rs:36-52 [equiv_num] *)
Definition sz_equiv_num (m : seitz) : option Z := option_map rtype_equiv_num (rotation_type m).

(** seitz_mat_impl.rs:128-139 [proper_rotation] *)
Definition proper_rotation (m : seitz) : option mat3 :=
  match rotation_type m with
  | Some RE | Some RI | None => None
  | Some _ => Some (mmap (fun v => v * sz_det m) (rot m))
  end.

(** seitz_mat_impl.rs:68-109 [eigenvector]; [None] is the final [unwrap] panic *)
Definition trial_vectors : list vec3 :=
  flat_map (fun i => flat_map (fun j => map (fun k => V3 i j k) [1; 0; -1]) [1; 0; -1]) [1; 0; -1].
(** seitz_mat_impl.rs:96-104: the filter on the trial vectors *)
Definition positive_direction (f : vec3) : bool :=
  if 0 <? vz f then true
  else if vz f =? 0 then
    (if 0 <? vy f then true else if vy f =? 0 then 0 <? vx f else false)
  else false.
(** seitz_mat_impl.rs:68-109 [eigenvector] *)
Definition eigenvector (m : seitz) : option vec3 :=
  let m_i := msub (rot m) (mmap (fun v => v * sz_det m) I3) in
  let trials := filter (fun t => veqb (mvmul m_i t) v0 && negb (veqb t v0)) trial_vectors in
  match filter positive_direction trials with
  | c :: _ => Some c
  | [] => None
  end.

(** nalgebra [Matrix4::try_inverse] ([do_inverse4], the cofactor formula of MESA), on
    column-major entries m0..m15; returns [None] when the determinant is zero. *)
Record fmat4 := FM4 { f0 : f64; f1 : f64; f2 : f64; f3 : f64; f4 : f64; f5 : f64; f6 : f64;
  f7 : f64; f8 : f64; f9 : f64; f10 : f64; f11 : f64; f12 : f64; f13 : f64; f14 : f64; f15 : f64 }.
(** a*b*c and the six-term alternating sums, evaluated left to right as written *)
Definition fm3 (a b c : f64) : f64 := fmul (fmul a b) c.
(** a cofactor that starts with a positive term *)
Definition f6pos (a b c d e f : f64) : f64 :=      (*  a - b - c + d + e - f *)
  fsub (fadd (fadd (fsub (fsub a b) c) d) e) f.
(** a cofactor that starts with a negative term *)
Definition f6neg (a b c d e f : f64) : f64 :=      (* -a + b + c - d - e + f; [a] is already negated *)
  fadd (fsub (fsub (fadd (fadd a b) c) d) e) f.
(** nalgebra [do_inverse4]: the sixteen cofactors *)
Definition fcofactors (m : fmat4) : fmat4 :=
  let '(FM4 m0 m1 m2 m3 m4 m5 m6 m7 m8 m9 m10 m11 m12 m13 m14 m15) := m in
  let n := fneg in
  FM4
  (* 0  *) (f6pos (fm3 m5 m10 m15) (fm3 m5 m11 m14) (fm3 m9 m6 m15) (fm3 m9 m7 m14) (fm3 m13 m6 m11) (fm3 m13 m7 m10))
  (* 1  *) (f6neg (fm3 (n m1) m10 m15) (fm3 m1 m11 m14) (fm3 m9 m2 m15) (fm3 m9 m3 m14) (fm3 m13 m2 m11) (fm3 m13 m3 m10))
  (* 2  *) (f6pos (fm3 m1 m6 m15) (fm3 m1 m7 m14) (fm3 m5 m2 m15) (fm3 m5 m3 m14) (fm3 m13 m2 m7) (fm3 m13 m3 m6))
  (* 3  *) (f6neg (fm3 (n m1) m6 m11) (fm3 m1 m7 m10) (fm3 m5 m2 m11) (fm3 m5 m3 m10) (fm3 m9 m2 m7) (fm3 m9 m3 m6))
  (* 4  *) (f6neg (fm3 (n m4) m10 m15) (fm3 m4 m11 m14) (fm3 m8 m6 m15) (fm3 m8 m7 m14) (fm3 m12 m6 m11) (fm3 m12 m7 m10))
  (* 5  *) (f6pos (fm3 m0 m10 m15) (fm3 m0 m11 m14) (fm3 m8 m2 m15) (fm3 m8 m3 m14) (fm3 m12 m2 m11) (fm3 m12 m3 m10))
  (* 6  *) (f6neg (fm3 (n m0) m6 m15) (fm3 m0 m7 m14) (fm3 m4 m2 m15) (fm3 m4 m3 m14) (fm3 m12 m2 m7) (fm3 m12 m3 m6))
  (* 7  *) (f6pos (fm3 m0 m6 m11) (fm3 m0 m7 m10) (fm3 m4 m2 m11) (fm3 m4 m3 m10) (fm3 m8 m2 m7) (fm3 m8 m3 m6))
  (* 8  *) (f6pos (fm3 m4 m9 m15) (fm3 m4 m11 m13) (fm3 m8 m5 m15) (fm3 m8 m7 m13) (fm3 m12 m5 m11) (fm3 m12 m7 m9))
  (* 9  *) (f6neg (fm3 (n m0) m9 m15) (fm3 m0 m11 m13) (fm3 m8 m1 m15) (fm3 m8 m3 m13) (fm3 m12 m1 m11) (fm3 m12 m3 m9))
  (* 10 *) (f6pos (fm3 m0 m5 m15) (fm3 m0 m7 m13) (fm3 m4 m1 m15) (fm3 m4 m3 m13) (fm3 m12 m1 m7) (fm3 m12 m3 m5))
  (* 11 *) (f6neg (fm3 (n m0) m5 m11) (fm3 m0 m7 m9) (fm3 m4 m1 m11) (fm3 m4 m3 m9) (fm3 m8 m1 m7) (fm3 m8 m3 m5))
  (* 12 *) (f6neg (fm3 (n m4) m9 m14) (fm3 m4 m10 m13) (fm3 m8 m5 m14) (fm3 m8 m6 m13) (fm3 m12 m5 m10) (fm3 m12 m6 m9))
  (* 13 *) (f6pos (fm3 m0 m9 m14) (fm3 m0 m10 m13) (fm3 m8 m1 m14) (fm3 m8 m2 m13) (fm3 m12 m1 m10) (fm3 m12 m2 m9))
  (* 14 *) (f6neg (fm3 (n m0) m5 m14) (fm3 m0 m6 m13) (fm3 m4 m1 m14) (fm3 m4 m2 m13) (fm3 m12 m1 m6) (fm3 m12 m2 m5))
  (* 15 *) (f6pos (fm3 m0 m5 m10) (fm3 m0 m6 m9) (fm3 m4 m1 m10) (fm3 m4 m2 m9) (fm3 m8 m1 m6) (fm3 m8 m2 m5)).
(** nalgebra [Matrix4::map] *)
Definition fmat4_map (g : f64 -> f64) (m : fmat4) : fmat4 :=
  FM4 (g (f0 m)) (g (f1 m)) (g (f2 m)) (g (f3 m)) (g (f4 m)) (g (f5 m)) (g (f6 m)) (g (f7 m))
      (g (f8 m)) (g (f9 m)) (g (f10 m)) (g (f11 m)) (g (f12 m)) (g (f13 m)) (g (f14 m)) (g (f15 m)).
(** nalgebra [do_inverse4]: determinant from the first column, zero test, scaling *)
Definition ftry_inverse (m : fmat4) : option fmat4 :=
  let o := fcofactors m in
  let det := fadd (fadd (fadd (fmul (f0 m) (f0 o)) (fmul (f1 m) (f4 o)))
                        (fmul (f2 m) (f8 o))) (fmul (f3 m) (f12 o)) in
  if fis_zero det then None
  else let inv_det := fdiv (f64_of_Z 1) det in Some (fmat4_map (fun x => fmul x inv_det) o).

(** seitz_mat_impl.rs:177-189 [to_f64_mat] *)
Definition to_f64_mat (m : seitz) : fmat4 :=
  let f := f64_of_Z in
  let d v := fdiv (f v) (f STBN) in
  FM4 (f (m11 (rot m))) (f (m21 (rot m))) (f (m31 (rot m))) (f (vx (bot m)))
      (f (m12 (rot m))) (f (m22 (rot m))) (f (m32 (rot m))) (f (vy (bot m)))
      (f (m13 (rot m))) (f (m23 (rot m))) (f (m33 (rot m))) (f (vz (bot m)))
      (d (vx (tra m))) (d (vy (tra m))) (d (vz (tra m))) (f (cor m)).
(** seitz_mat_impl.rs:205-213 [try_inverse] *)
Definition try_inverse (m : seitz) : option seitz :=
  match ftry_inverse (to_f64_mat m) with
  | None => None
  | Some o =>
      let i := Z_of_f64 in
      let s v := Z_of_f64 (fmul v (f64_of_Z STBN)) in
      Some (Sz (M3 (i (f0 o)) (i (f4 o)) (i (f8 o))
                   (i (f1 o)) (i (f5 o)) (i (f9 o))
                   (i (f2 o)) (i (f6 o)) (i (f10 o)))
               (V3 (s (f12 o)) (s (f13 o)) (s (f14 o)))
               (V3 (i (f3 o)) (i (f7 o)) (i (f11 o)))
               (i (f15 o)))
  end.

(** seitz_mat_impl.rs:150-171 [powi]; the [Less] branch's [unwrap] is the [Panic].
    [exponent.abs()] overflow at [i32::MIN] is modelled in [Machine.v]. *)
Definition powi (m : seitz) (e : Z) : outcome seitz :=
  match Z.compare e 0 with
  | Lt => match try_inverse m with
          | Some inv => Done (mat4_pow_pos inv (Z.to_nat (Z.abs e)))
          | None => Panic "called `Option::unwrap()` on a `None` value"
          end
  | Eq => Done sz_identity
  | Gt => Done (mat4_pow_pos m (Z.to_nat e))
  end.

Example inverse_off_by_one :
  try_inverse (aff (M3 0 (-1) 0 1 (-1) 0 0 0 1) (V3 1 8 0))
  = Some (aff (M3 (-1) 1 0 (-1) 0 0 0 0 1) (V3 (-6) 1 0)).
Proof. vm_compute. reflexivity. Qed.
