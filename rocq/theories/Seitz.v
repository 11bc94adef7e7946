(** * Seitz: [SeitzMatrix] (a [Matrix4<i32>]) and its exact integer operations.
    Source: src/hall_symbols/matrix_symbol/matrices/seitz_mat_impl.rs and mod.rs. *)
From Verif Require Import Base Notations.

(** matrices/mod.rs:13 [SeitzMatrix(Matrix4<i32>)], stored by blocks:
      ( rot  tra )
      ( bot  cor )
    All 16 entries are present; [SeitzMatrix::new] (seitz_mat_impl.rs:61-63) accepts any. *)
Record seitz := Sz { rot : mat3; tra : vec3; bot : vec3; cor : Z }.

(** The proper Seitz matrices have last row 0 0 0 1. *)
Definition affine (m : seitz) : bool := veqb (bot m) v0 && (cor m =? 1).
(** [Matrix3::to_homogeneous] with a translation column (seitz_mat_impl.rs:59) *)
Definition aff (R : mat3) (t : vec3) : seitz := Sz R t v0 1.

(** nalgebra [Matrix4 * Matrix4] *)
Definition mat4_mul (a b : seitz) : seitz :=
  Sz (madd (mmul (rot a) (rot b)) (vouter (tra a) (bot b)))
     (vadd (mvmul (rot a) (tra b)) (vscale (cor b) (tra a)))
     (vadd (vmmul (bot a) (rot b)) (vscale (cor a) (bot b)))
     (vdot (bot a) (tra b) + cor a * cor b).

(** seitz_mat_impl.rs:55-60 *)
Definition sz_identity : seitz := aff I3 v0.
(** seitz_mat_impl.rs:58-60 [inversion] *)
Definition sz_inversion : seitz := aff (mopp I3) v0.

(** seitz_mat_impl.rs:214-219: [rot] and [tra] are [rotation_part], [translation_part].
    seitz_mat_impl.rs:220-224 [set_translation_part]: also sets the corner to 1 *)
Definition set_translation_part (t : vec3) (m : seitz) : seitz := Sz (rot m) t (bot m) 1.

(** Rust [% SEITZ_TRANSLATE_BASE_NUMBER]: the remainder has the sign of the dividend *)
Definition rem12 (v : Z) : Z := Z.rem v STBN.

(** seitz_mat_impl.rs:22-34 [PartialEq::eq] *)
Definition sz_eqb (a b : seitz) : bool :=
  if meqb (rot a) (rot b)
  then vforall (fun v => rem12 v =? 0) (vsub (tra a) (tra b))
  else false.

(** seitz_mat_impl.rs:16-20 [Hash::hash]: nalgebra feeds the shape and then all entries in
    column-major order to the hasher.  Modelled as the sequence of values fed. *)
Definition sz_hash_input (m : seitz) : list Z :=
  [4; 4;
   m11 (rot m); m21 (rot m); m31 (rot m); vx (bot m);
   m12 (rot m); m22 (rot m); m32 (rot m); vy (bot m);
   m13 (rot m); m23 (rot m); m33 (rot m); vz (bot m);
   vx (tra m); vy (tra m); vz (tra m); cor m].
(** entries in storage (column-major) order *)
Definition sz_entries (m : seitz) : list Z := skipn 2 (sz_hash_input m).

(** matrices/mod.rs:12 [derive(PartialOrd)] = nalgebra [Matrix::partial_cmp]: compares all
    entries, starting from the ordering of the first; [None] when two entries disagree *)
Fixpoint partial_cmp_from (o : comparison) (l : list (Z * Z)) : option comparison :=
  match l with
  | [] => Some o
  | (a, b) :: r =>
      match Z.compare a b with
      | Eq => partial_cmp_from o r
      | Lt => match o with Gt => None | _ => partial_cmp_from Lt r end
      | Gt => match o with Lt => None | _ => partial_cmp_from Gt r end
      end
  end.
(** matrices/mod.rs:12 [derive(PartialOrd)] for [SeitzMatrix] *)
Definition sz_partial_cmp (a b : seitz) : option comparison :=
  match combine (sz_entries a) (sz_entries b) with
  | (x, y) :: r => partial_cmp_from (Z.compare x y) r
  | [] => Some Eq
  end.

(** seitz_mat_impl.rs:64-67 [is_unique_rotation] *)
Definition is_unique_rotation (a reference : seitz) : bool :=
  negb (meqb (rot a) (rot reference)) && negb (meqb (mopp (rot a)) (rot reference)).

(** seitz_mat_impl.rs:308-314 [Add], 333-338 [Sub]: entrywise *)
Definition sz_add (a b : seitz) : seitz :=
  Sz (madd (rot a) (rot b)) (vadd (tra a) (tra b)) (vadd (bot a) (bot b)) (cor a + cor b).
(** seitz_mat_impl.rs:333-338 [Sub] *)
Definition sz_sub (a b : seitz) : seitz :=
  Sz (msub (rot a) (rot b)) (vsub (tra a) (tra b)) (vsub (bot a) (bot b)) (cor a - cor b).
(** seitz_mat_impl.rs:316-331 [Add<Vector3<i32>>]: adds to the translation column (the
    homogeneous vector ends in 0) and reduces the first three entries with [%] *)
Definition sz_addv (a : seitz) (v : vec3) : seitz :=
  Sz (rot a) (vmap rem12 (vadd (tra a) v)) (bot a) (cor a).
(** seitz_mat_impl.rs:340-353 [Mul] *)
Definition sz_mul (a b : seitz) : seitz :=
  let res := mat4_mul a b in
  Sz (rot res) (vmap rem12 (tra res)) (bot res) (cor res).

(** seitz_mat_impl.rs:145-147 [trace] *)
Definition sz_trace (m : seitz) : Z := (mtrace (rot m) + cor m) - 1.

(** seitz_mat_impl.rs:160-169: [(0..k).map(|_| m).reduce(|acc, x| acc * x)] on the raw
    4x4 matrices (no reduction), for k = n + 1 >= 1 *)
Fixpoint mat4_pow_acc (m acc : seitz) (n : nat) : seitz :=
  match n with O => acc | S k => mat4_pow_acc m (mat4_mul acc m) k end.
(** seitz_mat_impl.rs:156-159, 164-167: the whole [reduce] *)
Definition mat4_pow_pos (m : seitz) (n : nat) : seitz :=
  match n with O => sz_identity (* unreachable: reduce of an empty range *)
             | S k => mat4_pow_acc m m k end.

(** src/utils/mod.rs:5-11 [positive_mod_stbn_i32] *)
Definition positive_mod (val : Z) : Z :=
  if val <? 0 then Z.rem val STBN + STBN else Z.rem val STBN.

(** src/hall_symbols/lattice_symbol/mod.rs:54-69 [seitz_matrices] *)
Definition lattice_seitz (l : lattice_symbol) : list seitz :=
  if ls_minus l then
    flat_map (fun v => [sz_addv sz_identity v; sz_addv sz_inversion v]) (translations (ls_char l))
  else map (fun v => sz_addv sz_identity v) (translations (ls_char l)).

(** src/hall_symbols/origin_shift/mod.rs:47-64 [shifted_matrix]: mvi * M * mv with
    mv = (1 | -v), mvi = (1 | v); then all four entries of the last column go through
    [positive_mod] *)
Definition shifted_matrix (v : vec3) (m : seitz) : seitz :=
  let mv := aff I3 (vopp v) in
  let mvi := aff I3 v in
  let r := mat4_mul (mat4_mul mvi m) mv in
  Sz (rot r) (vmap positive_mod (tra r)) (bot r) (positive_mod (cor r)).
