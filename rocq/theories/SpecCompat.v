(** * SpecCompat: which rotation symbols can be combined (C29). *)
From Verif Require Import Base Notations Parser Seitz.
Open Scope Z_scope.

(** the rotations of a cube: 1, every 2-fold (plain or diagonal), every 4-fold, and 3* *)
Definition cubic_kind (ms : msym) : Prop :=
  match ms_fold ms, ms_diag ms with
  | F1, _ | F2, _ | F4, _ | F3, Asterisk => True
  | _, _ => False
  end.
(** the rotations of a hexagonal prism about axis [a]: 1, and the 2-fold (plain or diagonal),
    3-fold and 6-fold symbols with that axis *)
Definition hexagonal_kind (a : rot_axis) (ms : msym) : Prop :=
  match ms_fold ms, ms_diag ms with
  | F1, _ => True
  | F2, _ | F6, _ | F3, DiagNone => ms_axis ms = a
  | _, _ => False
  end.
Definition compatible (l : list msym) : Prop :=
  (forall ms, In ms l -> cubic_kind ms) \/ (exists a, forall ms, In ms l -> hexagonal_kind a ms).
