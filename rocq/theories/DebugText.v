(** * DebugText: derived [Debug] of the public types. *)
From Verif Require Import Base Notations Winnow Parser Seitz F64 Jones Rotations Tables Generate Positions Messages.
Open Scope Z_scope.
Open Scope string_scope.

(** [Debug] of slices, arrays and [Vec] *)
Definition list_debug {A} (f : A -> string) (l : list A) : string := "[" ++ sjoin ", " (map f l) ++ "]".
(** lattice_symbol/mod.rs:17-21 [LatticeSymbol]; [Lattices] is printed by its letter (mod.rs:85-94) *)
Definition lattice_symbol_debug (l : lattice_symbol) : string :=
  "LatticeSymbol { minus_sign: " ++ bool_debug (ls_minus l) ++ ", char: " ++ lattice_text (ls_char l) ++ " }".
(** origin_shift/mod.rs:16-21 [OriginShift] *)
Definition shift_debug (v : vec3) : string :=
  "OriginShift { va: " ++ Z_text (vx v) ++ ", vb: " ++ Z_text (vy v) ++ ", vc: " ++ Z_text (vz v) ++ " }".
(** src/hall_symbols/mod.rs:37-42 [HallSymbolNotation] *)
Definition hall_debug (h : hall) : string :=
  "HallSymbolNotation { lattice_symbol: " ++ lattice_symbol_debug (h_lat h) ++
  ", matrix_symbols: " ++ list_debug msym_debug (h_syms h) ++
  ", origin_shift: " ++ shift_debug (h_shift h) ++ " }".
(** nalgebra: the [Debug] of a matrix is that of its storage, an array of columns *)
Definition vector_debug (v : vec3) : string := list_debug (list_debug Z_text) [vlist v].
Definition matrix4_debug (m : seitz) : string :=
  list_debug (list_debug Z_text)
    [ [m11 (rot m); m21 (rot m); m31 (rot m); vx (bot m)];
      [m12 (rot m); m22 (rot m); m32 (rot m); vy (bot m)];
      [m13 (rot m); m23 (rot m); m33 (rot m); vz (bot m)];
      [vx (tra m); vy (tra m); vz (tra m); cor m] ].
(** matrix_symbol/matrices/mod.rs:12-13 [SeitzMatrix] *)
Definition seitz_debug (m : seitz) : string := "SeitzMatrix(" ++ matrix4_debug m ++ ")".
(** general_positions.rs:10-14 [GeneralPositions] *)
Definition gpos_debug (g : gpos) : string :=
  "GeneralPositions { lattice_translations: " ++ list_debug vector_debug (gp_lattice g) ++
  ", core_position_set: " ++ list_debug seitz_debug (gp_core g) ++ " }".
