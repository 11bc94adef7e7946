(** * Machine2: the remaining integer arithmetic of [SeitzMatrix] with machine integers: sum,
    difference, comparison of rotations, rotation type, proper rotation and eigenvector.
    Same conventions as in [Machine]. *)
From Verif Require Import Base Notations Seitz F64 Machine.
Open Scope Z_scope.

(** entry by entry operation on two 3x3 matrices *)
Definition imat2 (f : Z -> Z -> outcome Z) (a b : mat3) : outcome mat3 :=
  let* x1 := f (m11 a) (m11 b) in let* x2 := f (m12 a) (m12 b) in let* x3 := f (m13 a) (m13 b) in
  let* y1 := f (m21 a) (m21 b) in let* y2 := f (m22 a) (m22 b) in let* y3 := f (m23 a) (m23 b) in
  let* z1 := f (m31 a) (m31 b) in let* z2 := f (m32 a) (m32 b) in let* z3 := f (m33 a) (m33 b) in
  Done (M3 x1 x2 x3 y1 y2 y3 z1 z2 z3).
(** entry by entry operation on two vectors *)
Definition ivec2 (f : Z -> Z -> outcome Z) (a b : vec3) : outcome vec3 :=
  let* x := f (vx a) (vx b) in let* y := f (vy a) (vy b) in let* z := f (vz a) (vz b) in Done (V3 x y z).
(** [Matrix3::map] with a fallible closure *)
Definition imap3 (f : Z -> outcome Z) (a : mat3) : outcome mat3 := imat2 (fun x _ => f x) a a.

(** seitz_mat_impl.rs:308-314 [Add] *)
Definition isz_add p (a b : seitz) : outcome seitz :=
  let* R := imat2 (iadd p) (rot a) (rot b) in let* t := ivec2 (iadd p) (tra a) (tra b) in
  let* u := ivec2 (iadd p) (bot a) (bot b) in let* c := iadd p (cor a) (cor b) in Done (Sz R t u c).
(** seitz_mat_impl.rs:333-338 [Sub] *)
Definition isz_sub p (a b : seitz) : outcome seitz :=
  let* R := imat2 (isub p) (rot a) (rot b) in let* t := ivec2 (isub p) (tra a) (tra b) in
  let* u := ivec2 (isub p) (bot a) (bot b) in let* c := isub p (cor a) (cor b) in Done (Sz R t u c).
(** seitz_mat_impl.rs:64-67 [is_unique_rotation]: the second comparison is skipped when the first is false *)
Definition iis_unique_rotation p (a reference : seitz) : outcome bool :=
  if meqb (rot a) (rot reference) then Done false
  else let* n := imap3 (ineg p) (rot a) in Done (negb (meqb n (rot reference))).
(** seitz_mat_impl.rs:110-126 [rotation_type]; [det] cannot overflow (a saturating cast) *)
Definition irotation_type p (m : seitz) : outcome (option rot_type) :=
  let* t := itrace p m in Done (rotation_type_of (sz_det m) t).
(** seitz_mat_impl.rs:128-139 [proper_rotation] *)
Definition iproper_rotation p (m : seitz) : outcome (option mat3) :=
  let* ty := irotation_type p m in
  match ty with
  | Some RE | Some RI | None => Done None
  | Some _ => let* R := imap3 (fun v => imul p v (sz_det m)) (rot m) in Done (Some R)
  end.
(** nalgebra [Matrix3<i32> * Vector3<i32>]: one component, accumulated column by column *)
Definition idot3 p (a1 a2 a3 b1 b2 b3 : Z) : outcome Z :=
  let* y1 := imul p a1 b1 in
  let* x2 := imul p a2 b2 in let* y2 := iadd p x2 y1 in
  let* x3 := imul p a3 b3 in iadd p x3 y2.
(** nalgebra [Matrix3<i32> * Vector3<i32>] *)
Definition imvmul p (m : mat3) (v : vec3) : outcome vec3 :=
  let* a := idot3 p (m11 m) (m12 m) (m13 m) (vx v) (vy v) (vz v) in
  let* b := idot3 p (m21 m) (m22 m) (m23 m) (vx v) (vy v) (vz v) in
  let* c := idot3 p (m31 m) (m32 m) (m33 m) (vx v) (vy v) (vz v) in Done (V3 a b c).
(** seitz_mat_impl.rs:71-95: all 27 trial vectors are multiplied before any is chosen *)
Fixpoint itrials p (m_i : mat3) (l : list vec3) : outcome (list vec3) :=
  match l with
  | [] => Done []
  | t :: r =>
      let* x := imvmul p m_i t in
      let* k := itrials p m_i r in
      Done (if veqb x v0 && negb (veqb t v0) then t :: k else k)
  end.
(** seitz_mat_impl.rs:68-109 [eigenvector]; [None] is the final [unwrap] panic *)
Definition ieigenvector p (m : seitz) : outcome (option vec3) :=
  let* d := imap3 (fun v => imul p v (sz_det m)) I3 in
  let* m_i := imat2 (isub p) (rot m) d in
  let* trials := itrials p m_i trial_vectors in
  Done (match filter positive_direction trials with c :: _ => Some c | [] => None end).
