(** * SpecBravais: Bravais lattices (C95), independent of the model. *)
From Coq Require Import QArith.
From Verif Require Import Base Parser Tables Lookup Spec SpecHall SpecTables SpecType SpecMetric SpecKind SpecCell PropTableGroups.
Open Scope Z_scope.

(** ** Symmetries of a lattice *)
(** the map takes the translations of the group onto themselves and keeps lengths, whatever the
    metric (among those that the group keeps): a symmetry of the bare lattice *)
Definition lattice_symmetry (G : op -> Prop) (M : mat3) (d : Z) : Prop :=
  0 < d /\
  (forall v, G (I3, v) -> exists v', G (I3, v') /\ mvmul M v = vscale d v') /\
  (forall v', G (I3, v') -> exists v, G (I3, v) /\ mvmul M v = vscale d v') /\
  forall g, metric_of G g -> forall p, (length2 g (linear_image M d p) == length2 g p)%Q.
(** a linear change of coordinates v |-> A v / e turns the lattice of [G] into that of [G'] and the
    symmetries of the lattice of [G] into the rotation parts of [G'] *)
Definition has_lattice_of (G G' : op -> Prop) : Prop :=
  exists A e, 0 < e /\ mdet A <> 0 /\
    (forall v, G (I3, v) -> exists v', G' (I3, v') /\ mvmul A v = vscale e v') /\
    (forall v', G' (I3, v') -> exists v, G (I3, v) /\ mvmul A v = vscale e v') /\
    (forall M d, lattice_symmetry G M d -> exists R' t', G' (R', t') /\ mmul A M = mscale d (mmul R' A)) /\
    (forall R' t', G' (R', t') -> exists M d, lattice_symmetry G M d /\ mmul A M = mscale d (mmul R' A)).
(** a linear change of coordinates v |-> A v / e turns the lattice of [G] into that of [G'] and the
    symmetries M/d of the one into the symmetries M'/d' of the other: the same Bravais type *)
Definition same_bravais_type (G G' : op -> Prop) : Prop :=
  exists A e, 0 < e /\ mdet A <> 0 /\
    (forall v, G (I3, v) -> exists v', G' (I3, v') /\ mvmul A v = vscale e v') /\
    (forall v', G' (I3, v') -> exists v, G (I3, v) /\ mvmul A v = vscale e v') /\
    (forall M d, lattice_symmetry G M d -> exists M' d', lattice_symmetry G' M' d' /\ mscale d' (mmul A M) = mscale d (mmul M' A)) /\
    (forall M' d', lattice_symmetry G' M' d' -> exists M d, lattice_symmetry G M d /\ mscale d' (mmul A M) = mscale d (mmul M' A)).
(** the Bravais lattice of the default row numbered [k] *)
Definition of_lattice (h : hall) (k : nat) : Prop :=
  exists j label s, get_space_group_number default_table j = Some label /\ get_hall_symbol default_table j = Some s /\
    leading_number label = k /\ has_lattice_of (hall_group h) (text_group s).
(** International Tables: the 14 Bravais lattices, each with the number of the symmorphic group
    of all symmetries of the lattice and with the numbers of the types on it *)
Local Open Scope nat_scope.
Definition bravais_lattices : list (string * (nat * list nat)) :=
  [("aP"%string, (2, seq 1 2));
   ("mP"%string, (10, [3; 4; 6; 7; 10; 11; 13; 14]));
   ("mC"%string, (12, [5; 8; 9; 12; 15]));
   ("oP"%string, (47, seq 16 4 ++ seq 25 10 ++ seq 47 16));
   ("oC"%string, (65, seq 20 2 ++ seq 35 7 ++ seq 63 6));
   ("oF"%string, (69, [22; 42; 43; 69; 70]));
   ("oI"%string, (71, [23; 24; 44; 45; 46; 71; 72; 73; 74]));
   ("tP"%string, (123, seq 75 4 ++ [81] ++ seq 83 4 ++ seq 89 8 ++ seq 99 8 ++ seq 111 8 ++ seq 123 16));
   ("tI"%string, (139, [79; 80; 82; 87; 88; 97; 98] ++ seq 107 4 ++ seq 119 4 ++ seq 139 4));
   ("hR"%string, (166, [146; 148; 155; 160; 161; 166; 167]));
   ("hP"%string, (191, seq 143 3 ++ [147] ++ seq 149 6 ++ seq 156 4 ++ seq 162 4 ++ seq 168 27));
   ("cP"%string, (221, [195; 198; 200; 201; 205; 207; 208; 212; 213; 215; 218] ++ seq 221 4));
   ("cF"%string, (225, [196; 202; 203; 209; 210; 216; 219] ++ seq 225 4));
   ("cI"%string, (229, [197; 199; 204; 206; 211; 214; 217; 220; 229; 230]))]%list.
