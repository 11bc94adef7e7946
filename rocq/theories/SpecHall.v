(** * SpecHall: the group described by a Hall symbol (specification vocabulary). *)
From Verif Require Import Base Notations Parser Seitz Rotations Spec.
Open Scope Z_scope.

(** [v] is a centring translation of the lattice type, modulo whole cells *)
Definition centring (l : lattice) (v : vec3) : Prop :=
  exists u, In u (translations l) /\ vcong12 v u.
(** a pure translation, and conjugation by it: the operation seen from a shifted origin *)
Definition op_shift (v : vec3) : op := (I3, v).
Definition op_conj (v : vec3) (o : op) : op :=
  op_comp (op_comp (op_shift v) o) (op_shift (vopp v)).
(** the generators a Hall symbol stands for: the centring translations, the inversion at
    the origin when there is a leading minus, and the operation of every matrix symbol
    seen from the shifted origin *)
Definition hall_gens (h : hall) (o : op) : Prop :=
  (exists v, In v (translations (ls_char (h_lat h))) /\ o = (I3, v)) \/
  (ls_minus (h_lat h) = true /\ o = (mopp I3, V3 0 0 0)) \/
  (exists ms m, In ms (h_syms h) /\ seitz_matrix ms = Some m /\
     o = op_conj (h_shift h) (op_of m)).
(** the space group of a Hall symbol *)
Definition hall_group (h : hall) : op -> Prop := generated (hall_gens h).
(** it has no pure translations beyond the centring ones *)
Definition no_extra_translations (h : hall) : Prop :=
  forall t, hall_group h (I3, t) -> centring (ls_char (h_lat h)) t.
(** its rotation parts form a finite set *)
Definition finite_point_group (h : hall) : Prop :=
  exists S : list mat3, forall R t, hall_group h (R, t) -> In R S.
(** all matrix symbols denote an operation *)
Definition all_symbols_valid (h : hall) : Prop :=
  forall ms, In ms (h_syms h) -> seitz_matrix ms <> None.
