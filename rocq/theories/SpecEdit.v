(** * SpecEdit: edits of written Hall symbols (C98). *)
From Verif Require Import Base Notations Spec SpecText SpecHall SpecRelabel.
Open Scope Z_scope.

(** the written symbol of the mirror image: the other screw, three quarter letters for one *)
Definition mirror_chunk (k : chunk) : chunk :=
  Chunk (k_blanks k) (k_minus k) (k_fold k) (k_pieces k) (k_stray k) (mirror_sub (k_fold k) (k_sub k)) (flat_map mirror_letter (k_letters k)).
Definition opposite_shift (sh : option (Z * Z * Z)) : option (Z * Z * Z) :=
  option_map (fun '(a, b, c) => (- a, - b, - c)) sh.
(** the vector of a written shift *)
Definition shift_vector (sh : option (Z * Z * Z)) : vec3 :=
  match sh with Some (a, b, c) => V3 a b c | None => V3 0 0 0 end.
