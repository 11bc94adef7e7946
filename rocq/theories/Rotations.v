(** * Rotations: the Seitz matrix of a matrix symbol.
    Source: src/hall_symbols/matrix_symbol/matrices/rotation_matrices.rs and mod.rs. *)
From Verif Require Import Base Notations Seitz.

(** [Matrix4::from_columns] / [from_column_slice]: the source lists columns *)
Definition cols (a b c : vec3) : mat3 :=
  M3 (vx a) (vx b) (vx c) (vy a) (vy b) (vy c) (vz a) (vz b) (vz c).

(** rotation_matrices.rs:15-24 *)
Definition rot2 (a : rot_axis) : option mat3 :=
  match a with
  | AxX => Some (M3 1 0 0 0 (-1) 0 0 0 (-1))
  | AxY => Some (M3 (-1) 0 0 0 1 0 0 0 (-1))
  | AxZ => Some (M3 (-1) 0 0 0 (-1) 0 0 0 1)
  | AxOmitted => None
  end.
(** rotation_matrices.rs:26-38 *)
Definition rot3 (a : rot_axis) : option mat3 :=
  match a with
  | AxX => Some (cols (V3 1 0 0) (V3 0 0 1) (V3 0 (-1) (-1)))
  | AxY => Some (cols (V3 (-1) 0 (-1)) (V3 0 1 0) (V3 1 0 0))
  | AxZ => Some (cols (V3 0 1 0) (V3 (-1) (-1) 0) (V3 0 0 1))
  | AxOmitted => None
  end.
(** rotation_matrices.rs:40-67 *)
Definition rot4 (a : rot_axis) : option mat3 :=
  match a with
  | AxX => Some (cols (V3 1 0 0) (V3 0 0 1) (V3 0 (-1) 0))
  | AxY => Some (cols (V3 0 0 (-1)) (V3 0 1 0) (V3 1 0 0))
  | AxZ => Some (cols (V3 0 1 0) (V3 (-1) 0 0) (V3 0 0 1))
  | AxOmitted => None
  end.
(** rotation_matrices.rs:69-96 *)
Definition rot6 (a : rot_axis) : option mat3 :=
  match a with
  | AxX => Some (cols (V3 1 0 0) (V3 0 1 1) (V3 0 (-1) 0))
  | AxY => Some (cols (V3 0 0 (-1)) (V3 0 1 0) (V3 1 0 1))
  | AxZ => Some (cols (V3 1 1 0) (V3 (-1) 0 0) (V3 0 0 1))
  | AxOmitted => None
  end.
(** rotation_matrices.rs:98-125 *)
Definition rot2s (a : rot_axis) : option mat3 :=
  match a with
  | AxX => Some (cols (V3 (-1) 0 0) (V3 0 0 (-1)) (V3 0 (-1) 0))
  | AxY => Some (cols (V3 0 0 (-1)) (V3 0 (-1) 0) (V3 (-1) 0 0))
  | AxZ => Some (cols (V3 0 (-1) 0) (V3 (-1) 0 0) (V3 0 0 (-1)))
  | AxOmitted => None
  end.
(** rotation_matrices.rs:127-154 *)
Definition rot2d (a : rot_axis) : option mat3 :=
  match a with
  | AxX => Some (cols (V3 (-1) 0 0) (V3 0 0 1) (V3 0 1 0))
  | AxY => Some (cols (V3 0 0 1) (V3 0 (-1) 0) (V3 1 0 0))
  | AxZ => Some (cols (V3 0 1 0) (V3 1 0 0) (V3 0 0 (-1)))
  | AxOmitted => None
  end.
(** rotation_matrices.rs:156-165 *)
Definition rot3star : mat3 := cols (V3 0 1 0) (V3 0 0 1) (V3 1 0 0).

(** rotation_matrices.rs:168-256 [get_rotation_matrix]; [None] is [Err(Invalid)].  The
    4x4 matrices have translation 0 and last row 0 0 0 1. *)
Definition get_rotation_matrix (m : msym) : option seitz :=
  let lift o := option_map (fun R => aff R v0) o in
  match ms_fold m, ms_diag m with
  | F1, _ => Some sz_identity
  | F2, DiagNone => lift (rot2 (ms_axis m))
  | F2, SingleQuote => lift (rot2s (ms_axis m))
  | F2, DoubleQuote => lift (rot2d (ms_axis m))
  | F2, Asterisk => None
  | F3, DiagNone => lift (rot3 (ms_axis m))
  | F3, SingleQuote | F3, DoubleQuote => None
  | F3, Asterisk => lift (Some rot3star)
  | F4, DiagNone => lift (rot4 (ms_axis m))
  | F4, _ => None
  | F6, DiagNone => lift (rot6 (ms_axis m))
  | F6, _ => None
  | FInvalid, _ => None
  end.

(** rotation_matrices.rs:258-264 [set_inversion] *)
Definition set_inversion (m : seitz) : seitz :=
  Sz (mmul (mopp I3) (rot m)) (tra m) v0 (cor m).

(** rotation_matrices.rs:275-287: reduction of a summed letter translation *)
Definition letter_mod (v : Z) : Z :=
  if negb ((0 <=? v) && (v <? 12)) then
    let new_v := Z.rem v 12 in if new_v <? 0 then new_v + STBN else new_v
  else v.
(** rotation_matrices.rs:270-274: the sum of the vectors of the letters *)
Definition letter_sum (l : list tsym) : vec3 :=
  fold_left vadd (map translation_vector l) v0.
(** rotation_matrices.rs:266-294 [set_translation_from_symbols] (never fails) *)
Definition set_translation_from_symbols (ms : msym) (m : seitz) : seitz :=
  match ms_trs ms with
  | Some l => Sz (rot m) (vadd (tra m) (vmap letter_mod (letter_sum l))) (bot m) (cor m)
  | None => m
  end.

(** rotation_matrices.rs:304-390: the column [k] on the named axis and 1 in the corner *)
Definition axis_column (a : rot_axis) (k : Z) : option vec3 :=
  match a with
  | AxOmitted => None
  | AxX => Some (V3 k 0 0) | AxY => Some (V3 0 k 0) | AxZ => Some (V3 0 0 k)
  end.
(** rotation_matrices.rs:296-392 [set_transform] *)
Definition set_transform (ms : msym) (m : seitz) : option seitz :=
  let put k := option_map (fun t => Sz (rot m) t (bot m) 1) (axis_column (ms_axis ms) k) in
  match ms_fold ms, ms_sub ms with
  | FInvalid, _ => None
  | F1, _ => Some m
  | F2, _ => Some m
  | F3, Sub1 => put 4
  | F3, Sub2 => put 8
  | F3, SubNone => Some m
  | F3, _ => None
  | F4, SubNone => Some m
  | F4, Sub1 => put 3
  | F4, Sub3 => put 9
  | F4, _ => None
  | F6, SubNone => Some m
  | F6, Sub1 => put 2
  | F6, Sub2 => put 4
  | F6, Sub3 => None
  | F6, Sub4 => put 8
  | F6, Sub5 => put 10
  end.

(** matrices/mod.rs:28-44 [seitz_matrix]; [None] is [Err(Invalid)] *)
Definition seitz_matrix (ms : msym) : option seitz :=
  match get_rotation_matrix ms with
  | None => None
  | Some r =>
      match set_transform ms r with
      | None => None
      | Some v =>
          let w := set_translation_from_symbols ms v in
          Some (if ms_minus ms then set_inversion w else w)
      end
  end.
