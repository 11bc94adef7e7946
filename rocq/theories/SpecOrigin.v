(** * SpecOrigin: equivalent origins (C99). *)
From Verif Require Import Base Notations Parser Seitz Rotations Spec SpecHall.
Open Scope Z_scope.

(** the notation with the origin shift [v] *)
Definition at_origin (v : vec3) (h : hall) : hall := Hall (h_lat h) (h_syms h) v.
(** moving the origin by [d] is not noticed: every rotation that is written brings [d] to a place that
    differs from [d] by a translation of the lattice letter *)
Definition equivalent_origin (h : hall) (d : vec3) : Prop :=
  forall ms m, In ms (h_syms h) -> seitz_matrix ms = Some m -> centring (ls_char (h_lat h)) (vsub d (mvmul (rot m) d)).
