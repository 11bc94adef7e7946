(** * SpecCanon: the one way an operation is written down (C61). *)
From Verif Require Import Base Seitz.
Open Scope Z_scope.

(** [n] twelfths of a cell, [n] from 1 to 11, as a fraction in lowest terms *)
Definition twelfths (n : Z) : string :=
  match n with
  | 1 => "1/12" | 2 => "1/6" | 3 => "1/4" | 4 => "1/3" | 5 => "5/12" | 6 => "1/2"
  | 7 => "7/12" | 8 => "2/3" | 9 => "3/4" | 10 => "5/6" | 11 => "11/12" | _ => ""
  end%string.
(** the shift is left out when it is a whole number of cells; otherwise it carries its sign,
    and whole cells are dropped towards zero *)
Definition shift_text (t : Z) : string :=
  match Z.rem t 12 with
  | Z0 => "" | Zpos n => "+" ++ twelfths (Zpos n) | Zneg n => "-" ++ twelfths (Zpos n)
  end%string.
(** the coordinates that occur, in the order x, y, z, each with its sign, where a plus sign in
    front is left out *)
Definition letters_text (a b c : Z) : string :=
  let signed (v : Z) (l : string) : string :=
    match v with Z0 => "" | Zpos _ => "+" ++ l | Zneg _ => "-" ++ l end%string in
  match (signed a "x" ++ signed b "y" ++ signed c "z")%string with
  | String "+" r => r
  | s => s
  end.
Definition coordinate_text (a b c t : Z) : string := (letters_text a b c ++ shift_text t)%string.
(** three coordinates, commas between them, no blanks *)
Definition operation_text (R : mat3) (t : vec3) : string :=
  (coordinate_text (m11 R) (m12 R) (m13 R) (vx t) ++ "," ++
   coordinate_text (m21 R) (m22 R) (m23 R) (vy t) ++ "," ++
   coordinate_text (m31 R) (m32 R) (m33 R) (vz t))%string.
