(** * Display: the printed forms of an operation and of the general positions.
    Source: src/hall_symbols/matrix_symbol/matrices/seitz_mat_impl.rs:191-203, 355-365,
    matrices/mod.rs:15-26 and src/hall_symbols/general_positions.rs:78-98.

    The layout of a matrix is nalgebra's [Display for Matrix] (its source is not in /repo and is
    modelled from its published text; the box characters are the UTF-8 bytes of the program). *)
From Verif Require Import Base Notations Parser Seitz F64 Jones Generate Positions.
Open Scope string_scope.

(** fraction::GenericFraction<i32>: a reduced fraction, sign in the numerator *)
Record frac := Fr { num : Z; den : Z }.
(** [GenericFraction::from(v)], and [GenericFraction::from(v) / GenericFraction::from(12)] *)
Definition frac_int (v : Z) : frac := Fr v 1.
(** seitz_mat_impl.rs:199: [GenericFraction::from(v) / GenericFraction::from(12)], reduced *)
Definition frac_div12 (v : Z) : frac := Fr (Z.quot v (Z.gcd v STBN)) (STBN / Z.gcd v STBN).
(** [Display for GenericFraction] *)
Definition frac_text (f : frac) : string :=
  if (den f =? 1)%Z then Z_text (num f) else Z_text (num f) ++ "/" ++ Z_text (den f).

(** seitz_mat_impl.rs:191-203 [to_fraction], row by row *)
Definition to_fraction (m : seitz) : list (list frac) :=
  let R := rot m in
  [[frac_int (m11 R); frac_int (m12 R); frac_int (m13 R); frac_div12 (vx (tra m))];
   [frac_int (m21 R); frac_int (m22 R); frac_int (m23 R); frac_div12 (vy (tra m))];
   [frac_int (m31 R); frac_int (m32 R); frac_int (m33 R); frac_div12 (vz (tra m))];
   [frac_int (vx (bot m)); frac_int (vy (bot m)); frac_int (vz (bot m)); frac_int (cor m)]].
(** the integer entries, row by row *)
Definition to_rows (m : seitz) : list (list Z) :=
  let R := rot m in
  [[m11 R; m12 R; m13 R; vx (tra m)]; [m21 R; m22 R; m23 R; vy (tra m)];
   [m31 R; m32 R; m33 R; vz (tra m)]; [vx (bot m); vy (bot m); vz (bot m); cor m]].

(** [format!("{:>w$}", "")] *)
Fixpoint spaces (n : nat) : string := match n with O => "" | S k => String " "%char (spaces k) end.
(** nalgebra [Display for Matrix]: every cell as wide as the widest, one blank before each *)
Definition max_width (cells : list (list string)) : nat :=
  fold_right (fun r a => fold_right (fun c b => Nat.max (String.length c) b) a r) O cells.
(** nalgebra [Display for Matrix]: one cell, right aligned *)
Definition cell_text (w : nat) (c : string) : string :=
  " " ++ spaces (w - String.length c) ++ c.
(** nalgebra [Display for Matrix]: one row *)
Definition row_line (w : nat) (r : list string) : string :=
  "  │" ++ sconcat (map (cell_text w) r) ++ " │".
(** nalgebra [Display for Matrix]: the upper edge *)
Definition top_line (w cols : nat) : string := "  ┌ " ++ spaces ((w + 1) * cols - 1) ++ " ┐".
(** nalgebra [Display for Matrix]: the lower edge *)
Definition bottom_line (w cols : nat) : string := "  └ " ++ spaces ((w + 1) * cols - 1) ++ " ┘".
(** nalgebra [Display for Matrix]: the whole box *)
Definition matrix_text (cols : nat) (cells : list (list string)) : string :=
  let w := max_width cells in
  newline ++ top_line w cols ++ newline
  ++ sconcat (map (fun r => row_line w r ++ newline) cells)
  ++ bottom_line w cols ++ newline ++ newline.

(** nalgebra [Debug for Vector3<i32>] *)
Definition vec_debug (v : vec3) : string :=
  "[[" ++ Z_text (vx v) ++ ", " ++ Z_text (vy v) ++ ", " ++ Z_text (vz v) ++ "]]".
(** seitz_mat_impl.rs:355-365 [Display for SeitzMatrix] *)
Definition sz_display (m : seitz) : outcome string :=
  obind (jones m) (fun j =>
    match eigenvector m with
    | None => Panic "called `Option::unwrap()` on a `None` value"
    | Some e =>
        Done (j ++ " | " ++ vec_debug e ++ newline
              ++ matrix_text 4 (map (map frac_text) (to_fraction m)))
    end).
(** matrices/mod.rs:20-26 [Display for SeitzMatrixError] *)
Definition not_rotation_text (m : seitz) : string :=
  matrix_text 4 (map (map Z_text) (to_rows m)) ++ " is not a rotation matrix!".
(** general_positions.rs:78-98 [Display for GeneralPositions] *)
Definition positions_display (g : gpos) : outcome string :=
  obind (omap (fun p =>
           obind (omap sz_display (fst p)) (fun ls =>
             Done (sjoin newline [set_heading (snd p); sjoin newline ls])))
         (combine (derive_full_sets g) (gp_lattice g)))
        (fun sets => Done (sjoin newline sets)).

Example display_ex :
  sz_display (aff (M3 0 (-1) 0 1 (-1) 0 0 0 1) (V3 8 (-3) 6)) = Done
"-y+2/3,x-y-1/4,z+1/2 | [[0, 0, 1]]

  ┌                     ┐
  │    0   -1    0  2/3 │
  │    1   -1    0 -1/4 │
  │    0    0    1  1/2 │
  │    0    0    0    1 │
  └                     ┘

".
Proof. vm_compute. reflexivity. Qed.
