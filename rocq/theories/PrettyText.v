(** * PrettyText: derived [Debug] of the public types, one-line and multi-line ([{:#?}]). *)
From Verif Require Import Base Notations Winnow Parser Seitz F64 Jones Rotations Tables Generate Positions Display Messages DebugText.
Open Scope Z_scope.
Open Scope string_scope.

(** what a derived [Debug] hands to the formatter: a finished text (integers, booleans, unit
    variants), or a struct with named fields, a tuple struct or variant, or a list *)
Inductive dkind := DStruct | DTuple | DList.
Inductive dtree := DLeaf (s : string) | DNode (k : dkind) (name : string) (items : list (string * dtree)).
(** core::fmt::builders: what stands before a field *)
Definition dlabel (k : dkind) (f : string) : string := match k with DStruct => f ++ ": " | _ => "" end.
(** core::fmt::builders [DebugStruct], [DebugTuple], [DebugList] without any field or entry *)
Definition dempty (k : dkind) (name : string) : string := match k with DList => "[]" | _ => name end.
(** core::fmt::builders [DebugStruct], [DebugTuple], [DebugList] for [{:?}] *)
Fixpoint plain (t : dtree) : string :=
  match t with
  | DLeaf s => s
  | DNode k name [] => dempty k name
  | DNode k name items =>
      let body := sjoin ", " (map (fun x => match x with (f, v) => dlabel k f ++ plain v end) items) in
      match k with
      | DStruct => name ++ " { " ++ body ++ " }"
      | DTuple => name ++ "(" ++ body ++ ")"
      | DList => "[" ++ body ++ "]"
      end
  end.
(** a new line, indented by four blanks per level (core::fmt::builders [PadAdapter]) *)
Definition new_line (level : nat) : string := newline ++ spaces (4 * level).
(** the same builders for [{:#?}]: every field on its own line, followed by a comma *)
Fixpoint pretty (level : nat) (t : dtree) : string :=
  match t with
  | DLeaf s => s
  | DNode k name [] => dempty k name
  | DNode k name items =>
      let body := sconcat (map (fun x => match x with (f, v) => new_line (S level) ++ dlabel k f ++ pretty (S level) v ++ "," end) items)
        ++ new_line level in
      match k with
      | DStruct => name ++ " {" ++ body ++ "}"
      | DTuple => name ++ "(" ++ body ++ ")"
      | DList => "[" ++ body ++ "]"
      end
  end.

(** lists and arrays *)
Definition tree_list {A} (f : A -> dtree) (l : list A) : dtree := DNode DList "" (map (fun a => ("", f a)) l).
(** integers *)
Definition tree_Z (n : Z) : dtree := DLeaf (Z_text n).
(** lattice_symbol/mod.rs:17-21 [LatticeSymbol] *)
Definition tree_lattice (l : lattice_symbol) : dtree :=
  DNode DStruct "LatticeSymbol" [("minus_sign", DLeaf (bool_debug (ls_minus l))); ("char", DLeaf (lattice_text (ls_char l)))].
(** origin_shift/mod.rs:16-21 [OriginShift] *)
Definition tree_shift (v : vec3) : dtree :=
  DNode DStruct "OriginShift" [("va", tree_Z (vx v)); ("vb", tree_Z (vy v)); ("vc", tree_Z (vz v))].
(** [Option<Vec<TranslationSymbol>>] *)
Definition tree_letters (o : option (list tsym)) : dtree :=
  match o with None => DLeaf "None" | Some l => DNode DTuple "Some" [("", tree_list (fun t => DLeaf (tsym_debug t)) l)] end.
(** matrix_symbol/mod.rs:17-26 [MatrixSymbol] *)
Definition tree_msym (m : msym) : dtree :=
  DNode DStruct "MatrixSymbol"
    [("minus_sign", DLeaf (bool_debug (ms_minus m))); ("nfold_body", DLeaf (nfold_debug (ms_fold m)));
     ("nfold_sub", DLeaf (sub_debug (ms_sub m))); ("nfold_diag", DLeaf (diag_debug (ms_diag m)));
     ("rotation_axis", DLeaf (axis_debug (ms_axis m))); ("translation_symbols", tree_letters (ms_trs m))].
(** matrix_symbol/mod.rs:106-110 [MatrixSymbolError] *)
Definition tree_error (e : msym_error) : dtree :=
  match e with EInvalid m => DNode DTuple "Invalid" [("", tree_msym m)] | EIncomplete => DLeaf "IncompleteFields" end.
(** src/hall_symbols/mod.rs:37-42 [HallSymbolNotation] *)
Definition tree_hall (h : hall) : dtree :=
  DNode DStruct "HallSymbolNotation"
    [("lattice_symbol", tree_lattice (h_lat h)); ("matrix_symbols", tree_list tree_msym (h_syms h));
     ("origin_shift", tree_shift (h_shift h))].
(** nalgebra: a matrix is shown as its storage, an array of columns *)
Definition tree_vector (v : vec3) : dtree := tree_list (tree_list tree_Z) [vlist v].
(** matrix_symbol/matrices/mod.rs:12-13 [SeitzMatrix] *)
Definition tree_seitz (m : seitz) : dtree :=
  DNode DTuple "SeitzMatrix" [("", tree_list (tree_list tree_Z)
    [ [m11 (rot m); m21 (rot m); m31 (rot m); vx (bot m)];
      [m12 (rot m); m22 (rot m); m32 (rot m); vy (bot m)];
      [m13 (rot m); m23 (rot m); m33 (rot m); vz (bot m)];
      [vx (tra m); vy (tra m); vz (tra m); cor m] ])].
(** general_positions.rs:10-14 [GeneralPositions] *)
Definition tree_gpos (g : gpos) : dtree :=
  DNode DStruct "GeneralPositions"
    [("lattice_translations", tree_list tree_vector (gp_lattice g)); ("core_position_set", tree_list tree_seitz (gp_core g))].
(** [format!("{:#?}", ..)] of the public types *)
Definition hall_pretty (h : hall) : string := pretty 0 (tree_hall h).
Definition msym_pretty (m : msym) : string := pretty 0 (tree_msym m).
Definition error_pretty (e : msym_error) : string := pretty 0 (tree_error e).
Definition seitz_pretty (m : seitz) : string := pretty 0 (tree_seitz m).
Definition gpos_pretty (g : gpos) : string := pretty 0 (tree_gpos g).
