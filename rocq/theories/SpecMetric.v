(** * SpecMetric: distances in a crystal and the cells of the crystal systems (C63). *)
From Coq Require Import QArith.
From Verif Require Import Base Notations Parser Seitz Lookup Spec SpecTables.
Open Scope Q_scope.

(** the metric of a cell: squared lengths of the three axes and their scalar products *)
Record metric := Metric { gaa : Q; gbb : Q; gcc : Q; gbc : Q; gac : Q; gab : Q }.
(** squared length of a vector given by its fractional coordinates *)
Definition length2 (g : metric) (d : qvec) : Q :=
  gaa g * qx d * qx d + gbb g * qy d * qy d + gcc g * qz d * qz d
  + 2 * gbc g * qy d * qz d + 2 * gac g * qx d * qz d + 2 * gab g * qx d * qy d.
Definition distance2 (g : metric) (p q : qvec) : Q :=
  length2 g (QV (qx p - qx q) (qy p - qy q) (qz p - qz q)).
(** the operation keeps all distances between points of the crystal *)
Definition isometry (g : metric) (m : seitz) : Prop :=
  forall p q, distance2 g (act m p) (act m q) == distance2 g p q.

(** conditions on the cell *)
Definition right_bc (g : metric) := gbc g == 0.      (* alpha = 90 degrees *)
Definition right_ac (g : metric) := gac g == 0.      (* beta  = 90 degrees *)
Definition right_ab (g : metric) := gab g == 0.      (* gamma = 90 degrees *)
Definition hexagonal_cell (g : metric) : Prop :=     (* a = b, gamma = 120 degrees *)
  right_bc g /\ right_ac g /\ gaa g == gbb g /\ 2 * gab g == - gaa g.
Definition rhombohedral_cell (g : metric) : Prop :=  (* a = b = c, three equal angles *)
  gaa g == gbb g /\ gbb g == gcc g /\ gbc g == gac g /\ gac g == gab g.
Definition cubic_cell (g : metric) : Prop :=
  right_bc g /\ right_ac g /\ right_ab g /\ gaa g == gbb g /\ gbb g == gcc g.

(** International Tables: crystal system of a space-group number *)
Definition system_of_number (n : nat) : crystal_system :=
  if Nat.leb n 2 then Triclinic else if Nat.leb n 15 then Monoclinic
  else if Nat.leb n 74 then Orthorhombic else if Nat.leb n 142 then Tetragonal
  else if Nat.leb n 167 then Trigonal else if Nat.leb n 194 then Hexagonal else Cubic.
(** the label of a setting contains the letter *)
Fixpoint has_letter (c : ascii) (s : string) : bool :=
  match s with EmptyString => false | String d r => if Ascii.eqb c d then true else has_letter c r end.
(** the cells on which the setting with this label is defined: the label names the unique axis
    of a monoclinic setting and, by R, rhombohedral axes of a trigonal one *)
Definition cell_of_setting (label : string) (g : metric) : Prop :=
  match system_of_number (leading_number label) with
  | Triclinic => True
  | Monoclinic =>
      if has_letter "b" label then right_bc g /\ right_ab g
      else if has_letter "c" label then right_bc g /\ right_ac g
      else right_ac g /\ right_ab g
  | Orthorhombic => right_bc g /\ right_ac g /\ right_ab g
  | Tetragonal => right_bc g /\ right_ac g /\ right_ab g /\ gaa g == gbb g
  | Trigonal => if has_letter "R" label then rhombohedral_cell g else hexagonal_cell g
  | Hexagonal => hexagonal_cell g
  | Cubic => cubic_cell g
  end.
(** the cells fixed by the first symbol of a Hall symbol: hexagonal after a 6-fold or plain
    3-fold, rhombohedral after 3*, cubic otherwise *)
Definition cell_of_symbols (l : list msym) (g : metric) : Prop :=
  match l with
  | [] => False
  | first :: _ =>
      match ms_fold first, ms_diag first with
      | F6, _ => hexagonal_cell g
      | F3, Asterisk => rhombohedral_cell g
      | F3, _ => hexagonal_cell g
      | _, _ => cubic_cell g
      end
  end.
